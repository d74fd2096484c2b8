(** C65: frequencies, satellite entries, and the whole message of one constellation *)
From Coq Require Import Reals Lra Permutation.
From Flocq Require Import Core.
From Verif Require Import Base Bits_model Bits_proofs Bitstring Bitstream_model Bitstream_proofs RtcmMsm_model RtcmMsm_spec RtcmMsm_proofs Signals_model Signals_spec Signals_proofs Time_model Double_model Double_proofs SbpEph_spec Exact_proofs
  Sbp2Rtcm_model Sbp2Msm_model Sbp2Msm_spec Sbp2Msm_proofs Sbp2Msm_epoch_proofs MsmVal_model MsmVal_spec MsmVal_proofs MsmVal_wire_proofs MsmVal_cell_proofs.
Import ListNotations.
Open Scope Z_scope.

(** ** lists of options *)
Lemma all_some_total {A} (d : A) (l : list (option A)) : (forall i, 0 <= i < len l -> exists x, znth None i l = Some x) ->
  exists r, all_some l = Some r /\ len r = len l /\ forall i, 0 <= i < len l -> znth None i l = Some (znth d i r).
Proof.
  induction l as [|a l IH]; intros H; [exists []; split; [reflexivity|]; split; [reflexivity|]; intros i Hi; unfold len in Hi; cbn in Hi; lia|].
  rewrite len_cons in H. pose proof (len_nonneg l).
  assert (STEP : forall (B : Type) (e : B) (x : B) (r : list B) i, 0 <= i -> znth e (i + 1) (x :: r) = znth e i r) by (intros; unfold znth; replace (Z.to_nat (i + 1)) with (S (Z.to_nat i)) by lia; reflexivity).
  destruct (H 0 ltac:(lia)) as (x & Hx). cbn in Hx. subst a.
  destruct IH as (r & E & L & F). { intros i Hi. destruct (H (i + 1) ltac:(lia)) as (y & Hy). rewrite STEP in Hy by lia. exists y. exact Hy. }
  exists (x :: r). cbn [all_some]. rewrite E. split; [reflexivity|]. rewrite !len_cons, L. split; [reflexivity|]. intros i Hi.
  destruct (Z.eq_dec i 0) as [->|N]; [reflexivity|]. replace i with ((i - 1) + 1) by lia. rewrite !STEP by lia. apply F. lia.
Qed.
Lemma all_some_spec {A} (l : list (option A)) r : all_some l = Some r <-> l = map Some r.
Proof.
  revert r. induction l as [|a l IH]; intros r; cbn [all_some].
  - destruct r; cbn; split; congruence.
  - destruct a as [x|]; [|destruct r; cbn; split; discriminate]. destruct (all_some l) as [r'|] eqn:E.
    + specialize (IH r'). destruct r as [|y r]; cbn [map]; [split; discriminate|]. destruct IH as [IH _]. rewrite (IH eq_refl). split; [congruence|]. intros Q. inversion Q as [[Q1 Q2]]. f_equal.
      f_equal. clear - Q2. revert r Q2. induction r' as [|a r' IH]; intros [|b r] Q; cbn in Q; try discriminate; [reflexivity|]. inversion Q; subst. f_equal. apply IH. assumption.
    + split; [discriminate|]. intros Q. destruct r as [|y r]; [discriminate Q|]. cbn [map] in Q. inversion Q as [[Q1 Q2]]. specialize (IH r). destruct IH as [_ IH]. specialize (IH Q2). discriminate IH.
Qed.

Section Freq.
Variable carrier : code -> Z.
Hypothesis CAR : carriers_ok carrier.
Lemma freq_exact k fcn : k <> CODE_INVALID -> (glo_code k = true -> 0 <= fcn <= 15) ->
  exists fr, signal_freq carrier k fcn = Some fr /\ dexact fr (scaled (hertz carrier k fcn) 0) /\ 1100000000 <= hertz carrier k fcn <= 1700000000.
Proof.
  intros K G. pose proof (CAR k) as C.
  assert (N255 : glo_code k = true -> fcn =? MSM_GLO_FCN_UNKNOWN = false) by (intros Q; specialize (G Q); unfold MSM_GLO_FCN_UNKNOWN; lia).
  assert (GL : forall a b, 0 <= a <= 1602000000 -> 0 <= b <= 562500 -> 0 <= fcn <= 15 -> dexact (dadd (dofZ a) (dmul (dofZ (fcn - MSM_GLO_FCN_OFFSET)) (dofZ b))) (scaled (a + (fcn - 7) * b) 0)).
  { intros a b Ha Hb Q. unfold MSM_GLO_FCN_OFFSET. assert (P : Z.abs ((fcn - 7) * b) <= 10000000) by nia. apply ex_add; [apply ex_Z; lia|apply ex_mul; [apply ex_Z; lia|lia|lia|lia]|lia|lia]. }
  destruct k; try contradiction; cbn [signal_freq hertz glo_code] in *; try rewrite (N255 eq_refl);
    eexists; (split; [reflexivity|]); (split; [first [apply GL; [lia|lia|apply G; reflexivity]|apply ex_Z; lia]|first [lia|specialize (G eq_refl); lia]]).
Qed.
Lemma freq_none k fcn : glo_code k = true -> fcn = 255 -> signal_freq carrier k fcn = None.
Proof. intros G ->. destruct k; try discriminate G; reflexivity. Qed.
Lemma freq_indep k a b : glo_code k = false -> signal_freq carrier k a = signal_freq carrier k b.
Proof. intros G. destruct k; try discriminate G; reflexivity. Qed.
Lemma hertz_indep k a b : glo_code k = false -> hertz carrier k a = hertz carrier k b.
Proof. intros G. destruct k; try discriminate G; reflexivity. Qed.
Lemma glo_cons k c : cons_of k = Some c -> glo_code k = cons_eqb c cGLO.
Proof. destruct k; cbn; intros Q; inversion Q; reflexivity. Qed.
End Freq.

Section One.
Variable carrier : code -> Z.
Variable code_of : Z -> code.
Variable num_of : code -> Z.
Hypothesis CAR : carriers_ok carrier.
Hypothesis NUM : forall k, code_of (num_of k) = k.
Variable fcns : list Z.
Hypothesis FM : fcn_map_ok fcns.
Notation sig_of := (sig_of code_of).
Variables (c : cons) (l : list pobs) (m : omsg) (ty : Z).
Hypothesis T : ty = 4 \/ ty = 5.
Hypothesis Hc : c <> cINVALID.
Hypothesis Hplaced : Forall (fun o => exists i j, placed code_of c o i j) l.
Hypothesis Hdup : NoDup (map (fun o => (o_sat o, sig_of o)) l).
Hypothesis H32 : distinct_sats l <= 32.
Hypothesis H64 : distinct_sats l * distinct_sigs code_of l <= 64.
Hypothesis Hrange : Forall obs_in_range l.
Hypothesis FULL : full code_of c l m.
Let h := om_hdr m.
Hypothesis TC : to_constellation (mh_num h) = c.

(** the sender's channel number and frequency *)
Definition tx_fcn (o : pobs) : Z := if cons_eqb c cGLO then fcn_of fcns o else 255.
Definition tx_freq (o : pobs) : option dbl := signal_freq carrier (sig_of o) (tx_fcn o).
Lemma glo_sat o : In o l -> c = cGLO -> 1 <= o_sat o <= 28.
Proof. intros Ho ->. destruct (placed_eq code_of cGLO l Hplaced o Ho) as (_ & [R _] & _). cbn in R. lia. Qed.
Lemma fcn_range o : In o l -> c = cGLO -> (0 <= tx_fcn o <= 13 \/ tx_fcn o = 255) /\ znth 0 (o_sat o) fcns = tx_fcn o.
Proof.
  intros Ho C. pose proof (glo_sat o Ho C) as R. unfold tx_fcn, fcn_of. rewrite C. cbn [cons_eqb]. destruct FM as [L F].
  assert (E : forall d, znth d (o_sat o) fcns = nth (Z.to_nat (o_sat o)) fcns 0) by (intros d; unfold znth; apply nth_indep; unfold len in L; lia).
  rewrite !E. split; [|reflexivity]. rewrite Forall_forall in F. apply F. apply nth_In. unfold len in L. lia.
Qed.
Lemma sig_facts o : In o l -> sig_of o <> CODE_INVALID /\ cons_of (sig_of o) = Some c /\ glo_code (sig_of o) = cons_eqb c cGLO.
Proof.
  intros Ho. destruct (placed_eq code_of c l Hplaced o Ho) as (P1 & _ & P3). destruct (sig_id_of _ _ _ P3) as (_ & _ & _ & K).
  split; [exact K|]. split; [exact P1|]. apply glo_cons. exact P1.
Qed.
Lemma bits o : In o l -> znth false (satp c o) (sat_mask h) = true /\ znth false (sigp code_of c o) (sig_mask h) = true /\
  znth false (cell_of h (satp c o) (sigp code_of c o)) (cell_mask h) = true.
Proof.
  intros Ho. destruct FULL as (_ & _ & _ & CA & _). rewrite Forall_forall in CA. destruct (CA o Ho) as (A & B & C & _). auto.
Qed.
Lemma obs_freq_eq o : In o l -> obs_freq carrier code_of h fcns o = Some (tx_fcn o, tx_freq o).
Proof.
  intros Ho. destruct FULL as ((L1 & L2 & L3) & _). destruct (placed_eq code_of c l Hplaced o Ho) as (P1 & P2 & P3). destruct (bits o Ho) as (B1 & B2 & _).
  destruct (index_to_signal h (sig_of o) (sigp code_of c o) L2) as (s & E1 & _ & E2); [rewrite TC; exact P3|exact B2|].
  unfold obs_freq. change (code_of (o_code o)) with (sig_of o). rewrite E1. unfold obs_fcn. rewrite TC. unfold msm_signal_frequency. rewrite E2. unfold tx_freq.
  destruct (cons_eqb c cGLO) eqn:G.
  - apply cons_eqb_spec in G. pose proof (glo_sat o Ho G) as R. destruct (fcn_range o Ho G) as [_ E3]. destruct FM as [LF _]. rewrite LF.
    replace ((0 <=? o_sat o) && (o_sat o <? 29)) with true by lia. rewrite E3. reflexivity.
  - unfold tx_fcn. rewrite G. reflexivity.
Qed.
(** the frequency as the specification states it *)
Lemma tx_known o : In o l -> freq_known code_of fcns o ->
  exists fr, tx_freq o = Some fr /\ dexact fr (scaled (hertz carrier (sig_of o) (fcn_of fcns o)) 0) /\ 1100000000 <= hertz carrier (sig_of o) (fcn_of fcns o) <= 1700000000.
Proof.
  intros Ho K. destruct (sig_facts o Ho) as (N & _ & G). unfold tx_freq, tx_fcn. unfold freq_known in K.
  destruct (cons_eqb c cGLO) eqn:CG.
  - apply freq_exact; [exact CAR|exact N|]. intros _. apply cons_eqb_spec in CG. destruct (fcn_range o Ho CG) as [[R|R] _]; unfold tx_fcn in R; rewrite CG in R; cbn [cons_eqb] in R; [lia|].
    exfalso. apply K; [exact G|exact R].
  - rewrite (freq_indep carrier _ 255 0 G), (hertz_indep carrier _ (fcn_of fcns o) 0 G). apply freq_exact; [exact CAR|exact N|lia].
Qed.
Lemma tx_unknown o : In o l -> tx_freq o <> None -> freq_known code_of fcns o.
Proof.
  intros Ho K G E. destruct (sig_facts o Ho) as (N & _ & G'). apply K. unfold tx_freq, tx_fcn. rewrite <- G', G, E. apply freq_none; [exact G|reflexivity].
Qed.

(** ** a satellite entry *)
Definition hz (o : pobs) : Z := hertz carrier (sig_of o) (fcn_of fcns o).
Lemma sat_fold os : (forall o, In o os -> In o l) -> 
  exists s, fold_right (write_sat carrier code_of h fcns) (Some no_dsat) os = Some s /\
    (forall o1 r, os = o1 :: r -> ds_fcn s = tx_fcn o1 /\ exists z, dexact (ds_range s) (scaled z 10) /\ 0 <= z <= 260096 /\ (Rabs (IZR z / 1024 - ms_of o1) <= / 2048 + / 100000000000)%R) /\
    exists r, ds_rate s = dofZ r /\ Z.abs r <= 8178 /\
      ((forall o, In o os -> flag o 3 = true -> ~ freq_known code_of fcns o) \/
       exists o2, In o2 os /\ flag o2 3 = true /\ freq_known code_of fcns o2 /\ (Rabs (IZR r - rate_R (hz o2) o2) <= / 2 + / 1000000000000)%R).
Proof.
  induction os as [|o os IH]; intros H.
  - exists no_dsat. split; [reflexivity|]. split; [intros o1 r Q; discriminate Q|]. exists 0. split; [reflexivity|]. split; [lia|]. left. intros o [].
  - destruct IH as (s & E & _ & (r & ER & BR & VR)); [intros o' Ho'; apply H; right; exact Ho'|]. assert (Ho : In o l) by (apply H; left; reflexivity).
    rewrite Forall_forall in Hrange. pose proof (Hrange o Ho) as RG. pose proof RG as (_ & _ & _ & _ & _ & _ & _ & Bf & F0 & _). destruct (has_flag o Bf) as (H0 & _ & _ & H3).
    cbn [fold_right]. rewrite E. unfold write_sat. rewrite obs_freq_eq by exact Ho. unfold sat_step. rewrite H0, F0, H3.
    destruct (rough_spec o RG) as (z & EZ & BZ & NZ). rewrite EZ.
    assert (RX : dexact (ddiv (dofZ z) (dofZ 1024)) (scaled z 10)) by (apply (ex_div z 10); lia).
    destruct (tx_freq o) as [fr|] eqn:TF.
    + assert (KN : freq_known code_of fcns o) by (apply tx_unknown; [exact Ho|rewrite TF; discriminate]).
      destruct (tx_known o Ho KN) as (fr' & TF' & EX & RF). rewrite TF in TF'. injection TF' as <-.
      destruct (flag o 3) eqn:F3.
      * destruct (rough_rate_spec (hz o) fr RF EX o RG) as (r' & ER' & BR' & NR'). rewrite ER'. eexists. split; [reflexivity|]. cbn [ds_fcn ds_range ds_rate]. split.
        -- intros o1 q Q. inversion Q; subst. split; [reflexivity|]. exists z. auto.
        -- exists r'. split; [reflexivity|]. split; [exact BR'|]. right. exists o. split; [left; reflexivity|]. auto.
      * eexists. split; [reflexivity|]. cbn [ds_fcn ds_range ds_rate]. split.
        -- intros o1 q Q. inversion Q; subst. split; [reflexivity|]. exists z. auto.
        -- exists r. split; [exact ER|]. split; [exact BR|]. destruct VR as [VR|(o2 & I2 & VR)].
           ++ left. intros o' [<-|Ho'] F; [congruence|]. apply VR; assumption.
           ++ right. exists o2. split; [right; exact I2|exact VR].
    + eexists. split; [reflexivity|]. cbn [ds_fcn ds_range ds_rate]. split.
      * intros o1 q Q. inversion Q; subst. split; [reflexivity|]. exists z. auto.
      * exists r. split; [exact ER|]. split; [exact BR|]. destruct VR as [VR|(o2 & I2 & VR)].
        -- left. intros o' [<-|Ho'] F; [|apply VR; assumption]. intros KN. destruct (tx_known o Ho KN) as (fr' & TF' & _). congruence.
        -- right. exists o2. split; [right; exact I2|exact VR].
Qed.

(** ** the masks *)
Definition trim (h : mhdr) : mhdr :=
  mkmhdr (mh_num h) (mh_stn h) (mh_tow h) (mh_multiple h) (mh_iods h) (mh_reserved h) (mh_steering h) (mh_ext_clock h) (mh_div h) (mh_smooth h)
    (sat_mask h) (sig_mask h) (take (set_count (sat_mask h) * set_count (sig_mask h)) (cell_mask h)).
Let ns := set_count (sat_mask h).
Let ng := set_count (sig_mask h).
Lemma sizes : len (sat_mask h) = 64 /\ len (sig_mask h) = 32 /\ len (cell_mask h) = 64 /\ 0 <= ns <= 32 /\ 0 <= ng <= 32 /\ 0 <= ns * ng <= 64 /\ num_sats h = ns /\ num_sigs h = ng.
Proof.
  destruct FULL as ((L1 & L2 & L3) & B & _). destruct (grid_le code_of c l Hplaced H32 H64 h B) as [G1 G2]. pose proof (set_count_range (sat_mask h)) as S1. pose proof (set_count_range (sig_mask h)) as S2.
  fold h in L1, L2, L3. rewrite L1 in S1. rewrite L2 in S2. fold ns in G1, G2, S1. fold ng in G2, S2. split; [exact L1|]. split; [exact L2|]. split; [exact L3|]. split; [lia|]. split; [lia|]. split; [nia|]. split; [apply num_sats_eq; exact L1|apply num_sigs_eq; exact L2].
Qed.
Lemma nth_set_ex mask : forall i, 0 <= i < set_count mask -> exists p, nth_set mask (i + 1) p.
Proof.
  induction mask as [|b r IH]; intros i Hi; [rewrite set_count_nil in Hi; lia|]. rewrite set_count_cons in Hi.
  assert (SH : forall j q, nth_set r (j + 1) q -> nth_set (b :: r) (j + (if b then 1 else 0) + 1) (q + 1)).
  { intros j q (A & B & C). split; [rewrite len_cons; lia|]. split; [unfold znth in *; replace (Z.to_nat (q + 1)) with (S (Z.to_nat q)) by lia; exact B|].
    unfold take in *. replace (Z.to_nat (q + 1)) with (S (Z.to_nat q)) by lia. cbn [firstn]. rewrite set_count_cons. destruct b; lia. }
  destruct b.
  - destruct (Z.eq_dec i 0) as [->|N].
    + exists 0. split; [rewrite len_cons; pose proof (len_nonneg r); lia|]. split; [reflexivity|reflexivity].
    + destruct (IH (i - 1) ltac:(lia)) as (q & Q). exists (q + 1). apply SH in Q. replace (i - 1 + 1) with i in Q by lia. exact Q.
  - destruct (IH i ltac:(lia)) as (q & Q). exists (q + 1). apply SH in Q. replace (i + 0) with i in Q by lia. exact Q.
Qed.
Definition rank (o : pobs) : Z := set_count (take (satp c o) (sat_mask h)).
Definition grank (o : pobs) : Z := set_count (take (sigp code_of c o) (sig_mask h)).
Definition crank (o : pobs) : Z := set_count (take (cell_of h (satp c o) (sigp code_of c o)) (cell_mask h)).
Lemma ranks o : In o l -> 0 <= rank o < ns /\ 0 <= grank o < ng /\ 0 <= crank o < set_count (cell_mask h).
Proof.
  intros Ho. destruct (pos_range code_of c l Hc Hplaced o Ho) as [R1 R2]. destruct FULL as (M & B & _). pose proof (cell_range code_of c l Hc Hplaced H32 H64 h o M B Ho) as R3.
  destruct sizes as (L1 & L2 & L3 & _). destruct (bits o Ho) as (B1 & B2 & B3).
  split; [apply rank_lt; [exact B1|lia]|]. split; [apply rank_lt; [exact B2|lia]|apply rank_lt; [exact B3|lia]].
Qed.
Lemma rank_sat o o' : In o l -> In o' l -> rank o = rank o' -> o_sat o = o_sat o'.
Proof.
  intros Ho Ho' E. destruct (pos_range code_of c l Hc Hplaced o Ho) as [R1 _]. destruct (pos_range code_of c l Hc Hplaced o' Ho') as [R1' _]. destruct sizes as (L1 & _).
  destruct (bits o Ho) as (B1 & _). destruct (bits o' Ho') as (B1' & _). apply rank_inj in E; [|exact B1|exact B1'|lia|lia]. unfold satp in E. lia.
Qed.
Lemma sat_surj i : 0 <= i < ns -> exists o, In o l /\ rank o = i.
Proof.
  intros Hi. destruct (nth_set_ex (sat_mask h) i Hi) as (p & (A & B & C)). destruct FULL as (_ & [BS _] & _). apply BS in B; [|lia]. destruct B as (o & Ho & ->).
  exists o. split; [exact Ho|]. change (rank o = i + 1 - 1) in C. lia.
Qed.
Lemma entry o : In o l -> exists o1 r, znth [] (rank o) (om_sats m) = o1 :: r /\ In o (o1 :: r) /\ forall o', In o' (o1 :: r) -> In o' l /\ o_sat o' = o_sat o.
Proof.
  intros Ho. destruct FULL as (_ & _ & _ & _ & _ & _ & (S1 & _ & S3)). pose proof (S3 o Ho) as I. fold h in I. change (set_count (take (satp c o) (sat_mask h))) with (rank o) in I.
  destruct (znth [] (rank o) (om_sats m)) as [|o1 r] eqn:E; [destruct I|]. exists o1, r. split; [reflexivity|]. split; [exact I|]. intros o' Ho'.
  destruct (ranks o Ho) as (R & _). destruct (S1 (rank o) o' ltac:(lia)) as [A B]; [rewrite E; exact Ho'|]. split; [exact A|]. apply rank_sat; [exact A|exact Ho|exact B].
Qed.
Lemma cells_trim : cells ns ng (take (ns * ng) (cell_mask h)) = cells ns ng (cell_mask h).
Proof.
  destruct sizes as (_ & _ & _ & N1 & N2 & _). unfold cells. 
  assert (X : forall s, In s (zrange 0 (Z.to_nat ns)) -> flat_map (fun sig => if znth false (s * ng + sig) (take (ns * ng) (cell_mask h)) then [(s, sig)] else []) (zrange 0 (Z.to_nat ng)) =
     flat_map (fun sig => if znth false (s * ng + sig) (cell_mask h) then [(s, sig)] else []) (zrange 0 (Z.to_nat ng))).
  { intros s Hs. apply in_zrange in Hs. rewrite !flat_map_concat_map. f_equal. apply map_ext_in. intros g Hg. apply in_zrange in Hg. rewrite znth_take by nia. reflexivity. }
  rewrite !flat_map_concat_map. f_equal. apply map_ext_in. exact X.
Qed.
Lemma trim_count : set_count (take (ns * ng) (cell_mask h)) = set_count (cell_mask h).
Proof.
  destruct sizes as (L1 & L2 & L3 & N1 & N2 & N3 & _). rewrite <- (take_drop (ns * ng) (cell_mask h)) at 2. rewrite set_count_app.
  enough (E : set_count (drop (ns * ng) (cell_mask h)) = 0) by lia. apply no_true.
  assert (X : forall i, 0 <= i -> znth false i (drop (ns * ng) (cell_mask h)) = false).
  { intros i GE. rewrite znth_drop by lia. destruct (znth false (ns * ng + i) (cell_mask h)) eqn:E; [|reflexivity]. exfalso.
    destruct FULL as (_ & _ & C & _). apply C in E; [|lia]. destruct E as (o & Ho & E). destruct (ranks o Ho) as (R1 & R2 & _). unfold cell_of in E. fold h in E. fold (rank o) (grank o) ng in E. nia. }
  intros i. destruct (Z.lt_ge_cases i 0) as [LT|GE]; [|apply X; exact GE]. specialize (X 0 ltac:(lia)). unfold znth in X |- *. replace (Z.to_nat i) with (Z.to_nat 0) by lia. exact X.
Qed.
Let cs := cells ns ng (cell_mask h).
Lemma cs_len : len cs = len l.
Proof.
  destruct sizes as (L1 & L2 & L3 & N1 & N2 & N3 & _). unfold cs. rewrite <- cells_trim.
  destruct (cells_spec ns ng (take (ns * ng) (cell_mask h)) ltac:(lia) ltac:(lia)) as [P _]; [rewrite len_take; lia|]. rewrite P, trim_count.
  destruct FULL as (M & B & C & _). apply (cells_count code_of c l Hc Hplaced Hdup H32 H64 h M B C).
Qed.
Lemma cell_at i : 0 <= i < len l -> exists o, In o l /\ znth (0, 0) i cs = (rank o, grank o) /\ crank o = i /\ znth None i (om_sigs m) = Some o.
Proof.
  intros Hi. destruct sizes as (L1 & L2 & L3 & N1 & N2 & N3 & _).
  destruct (cells_spec ns ng (take (ns * ng) (cell_mask h)) ltac:(lia) ltac:(lia)) as [P Q]; [rewrite len_take; lia|]. rewrite cells_trim in P, Q. fold cs in P, Q.
  destruct (znth (0, 0) i cs) as [s g] eqn:E. destruct (proj2 (Q i s g)) as [NS G]; [split; [rewrite <- P, cs_len; exact Hi|exact E]|].
  destruct NS as (A & B & C). rewrite len_take in A. rewrite znth_take in B by lia. rewrite take_take in C.
  replace (Z.min (s * ng + g) (ns * ng)) with (s * ng + g) in C by lia.
  destruct FULL as (_ & _ & CF & CA & _). apply CF in B; [|lia]. destruct B as (o & Ho & B). exists o. split; [exact Ho|].
  destruct (ranks o Ho) as (R1 & R2 & _). change (s * ng + g = rank o * ng + grank o) in B.
  assert (S : s = rank o /\ g = grank o) by (apply (Z.div_mod_unique ng); [left; lia|left; lia|lia]). destruct S as [-> ->]. split; [reflexivity|].
  assert (CR : crank o = i). { unfold crank. change (cell_of h (satp c o) (sigp code_of c o)) with (rank o * ng + grank o). lia. }
  split; [exact CR|]. rewrite Forall_forall in CA. destruct (CA o Ho) as (_ & _ & _ & S & _). rewrite <- CR. exact S.
Qed.

(** ** the numbers written *)
Lemma znth_take' {A} (d : A) i n r : 0 <= i < n -> znth d i (take n r) = znth d i r. Proof. apply znth_take. Qed.
Lemma values_ok : exists ss gs, values carrier code_of fcns m = Some (mkdmsg h ss gs) /\ len ss = 32 /\ len gs = 64 /\
  (forall i, 0 <= i < 32 -> fold_right (write_sat carrier code_of h fcns) (Some no_dsat) (znth [] i (om_sats m)) = Some (znth no_dsat i ss)) /\
  (forall o, In o l -> znth no_dsig (crank o) gs = obs_sig (tx_freq o) o).
Proof.
  destruct FULL as (_ & _ & _ & CA & LS & LG & (S1 & S2 & S3)).
  destruct (all_some_total no_dsat (map (fold_right (write_sat carrier code_of h fcns) (Some no_dsat)) (om_sats m))) as (ss & E1 & L1 & F1).
  { rewrite len_map. intros i Hi. rewrite (znth_map _ []) by exact Hi. destruct (sat_fold (znth [] i (om_sats m))) as (s & E & _); [|exists s; exact E].
    intros o Ho. apply (S1 i o); [lia|exact Ho]. }
  destruct (all_some_total no_dsig (map (fun c => match c with Some o => write_sig carrier code_of h fcns o | None => Some no_dsig end) (om_sigs m))) as (gs & E2 & L2 & F2).
  { rewrite len_map. intros i Hi. rewrite (znth_map _ None) by exact Hi. destruct (znth None i (om_sigs m)) as [o|] eqn:E; [|eexists; reflexivity].
    unfold write_sig. rewrite obs_freq_eq by (apply (S2 i o); [lia|exact E]). eexists. reflexivity. }
  exists ss, gs. unfold values. fold h. rewrite E1, E2. split; [reflexivity|]. rewrite len_map in L1. rewrite len_map in F1. rewrite len_map in L2. rewrite len_map in F2. split; [lia|]. split; [lia|]. split.
  - intros i Hi. specialize (F1 i ltac:(lia)). rewrite (znth_map _ []) in F1 by lia. exact F1.
  - intros o Ho. destruct (ranks o Ho) as (_ & _ & R). pose proof (set_count_range (cell_mask h)). destruct sizes as (_ & _ & L3 & _).
    specialize (F2 (crank o) ltac:(lia)). rewrite (znth_map _ None) in F2 by lia. rewrite Forall_forall in CA. destruct (CA o Ho) as (_ & _ & _ & S & _).
    change (znth None (crank o) (om_sigs m) = Some o) in S. rewrite S in F2. unfold write_sig in F2. rewrite obs_freq_eq in F2 by exact Ho. injection F2 as F2. symmetry. exact F2.
Qed.
Definition sat_entry (o : pobs) (r : rsat) : Prop := exists o1 z v, In o1 l /\ o_sat o1 = o_sat o /\ r = mkrsat (z / 1024) (tx_fcn o) (z mod 1024) v /\ 0 <= z <= 260096 /\
  (Rabs (IZR z / 1024 - ms_of o1) <= / 2048 + / 100000000000)%R /\ Z.abs v <= 8178 /\
  (ty = 5 -> flag o 3 = true -> freq_known code_of fcns o -> exists o2, In o2 l /\ o_sat o2 = o_sat o /\ flag o2 3 = true /\ freq_known code_of fcns o2 /\
     (Rabs (IZR v - rate_R (hz o2) o2) <= / 2 + / 1000000000000)%R).
Lemma sat_one o s : In o l -> fold_right (write_sat carrier code_of h fcns) (Some no_dsat) (znth [] (rank o) (om_sats m)) = Some s ->
  exists r, sat_raw (ty =? 5) s = Some r /\ sat_entry o r.
Proof.
  intros Ho E. destruct (entry o Ho) as (o1 & q & EN & IO & ALL). rewrite EN in E. destruct (sat_fold (o1 :: q)) as (s' & E' & HD & (v & EV & BV & VV)); [intros o' Ho'; apply ALL; exact Ho'|].
  rewrite E in E'. injection E' as <-. destruct (HD o1 q eq_refl) as (EF & z & EX & BZ & NZ).
  assert (TR : dtrunc (ds_rate s) = Some v). { rewrite EV. destruct (dofZ_exact v ltac:(lia)) as [F V]. rewrite dtrunc_spec by exact F. rewrite V, Ztrunc_IZR. reflexivity. }
  destruct (sat_raw_spec (ty =? 5) s z EX BZ) as (r & ER & RR). { intros _. exists v. split; [exact TR|lia]. }
  eexists. split; [exact ER|]. destruct (ALL o1 (or_introl eq_refl)) as [I1 ST]. exists o1, z, r. split; [exact I1|]. split; [exact ST|]. split.
  { rewrite EF. unfold tx_fcn, fcn_of. rewrite ST. reflexivity. }
  split; [exact BZ|]. split; [exact NZ|]. destruct (Z.eqb_spec ty 5) as [T5|T5].
  - rewrite TR in RR. injection RR as <-. split; [exact BV|]. intros _ F3 KN. destruct VV as [VV|(o2 & I2 & F2 & K2 & N2)]; [exfalso; apply (VV o IO F3 KN)|].
    exists o2. destruct (ALL o2 I2) as [A B]. auto.
  - subst r. split; [lia|]. intros Q. contradiction.
Qed.
Lemma raws ss gs : len ss = 32 -> len gs = 64 ->
  (forall i, 0 <= i < 32 -> fold_right (write_sat carrier code_of h fcns) (Some no_dsat) (znth [] i (om_sats m)) = Some (znth no_dsat i ss)) ->
  (forall o, In o l -> znth no_dsig (crank o) gs = obs_sig (tx_freq o) o) ->
  exists rs gr, all_some (map (sat_raw (ty =? 5)) (take ns ss)) = Some rs /\ len rs = ns /\
    all_some (mapi 0 (fun i (c : Z * Z) => sig_raw (ty =? 5) (znth no_rsat (fst c) rs) (znth no_dsig i gs)) cs) = Some gr /\ len gr = len l /\
    forall o, In o l -> sat_entry o (znth no_rsat (rank o) rs) /\ sig_raw (ty =? 5) (znth no_rsat (rank o) rs) (obs_sig (tx_freq o) o) = Some (znth no_rsig (crank o) gr).
Proof.
  intros LS LG FS FG. destruct sizes as (L1 & L2 & L3 & N1 & N2 & N3 & _).
  assert (LT : len (take ns ss) = ns) by (rewrite len_take; lia).
  assert (ONE : forall i, 0 <= i < ns -> exists o r, In o l /\ rank o = i /\ sat_raw (ty =? 5) (znth no_dsat i ss) = Some r /\ sat_entry o r).
  { intros i Hi. destruct (sat_surj i Hi) as (o & Ho & Q). destruct (sat_one o (znth no_dsat i ss) Ho) as (r & E & SE); [rewrite Q; apply FS; lia|]. exists o, r. auto. }
  destruct (all_some_total no_rsat (map (sat_raw (ty =? 5)) (take ns ss))) as (rs & E1 & LR & F1).
  { rewrite len_map, LT. intros i Hi. rewrite (znth_map _ no_dsat) by lia. rewrite znth_take by lia. destruct (ONE i Hi) as (o & r & _ & _ & E & _). exists r. exact E. }
  rewrite len_map, LT in LR. rewrite len_map, LT in F1. exists rs.
  assert (SE : forall o, In o l -> sat_entry o (znth no_rsat (rank o) rs)).
  { intros o Ho. destruct (ranks o Ho) as (R & _). specialize (F1 (rank o) ltac:(lia)). rewrite (znth_map _ no_dsat) in F1 by lia. rewrite znth_take in F1 by lia.
    destruct (sat_one o (znth no_dsat (rank o) ss) Ho) as (r & E & S); [apply FS; lia|]. rewrite E in F1. injection F1 as F1. rewrite <- F1. exact S. }
  assert (SG : forall o, In o l -> exists g, sig_raw (ty =? 5) (znth no_rsat (rank o) rs) (obs_sig (tx_freq o) o) = Some g).
  { intros o Ho. destruct (SE o Ho) as (o1 & z & v & _ & _ & -> & BZ & _ & BV & _). rewrite Forall_forall in Hrange.
    assert (X : exists f, 1100000000 <= f <= 1700000000 /\ forall fr, tx_freq o = Some fr -> dexact fr (scaled f 0)).
    { destruct (tx_freq o) as [fr|] eqn:TF; [|exists 1200000000; split; [lia|discriminate]].
      assert (KN : freq_known code_of fcns o) by (apply tx_unknown; [exact Ho|rewrite TF; discriminate]).
      destruct (tx_known o Ho KN) as (fr' & TF' & EX & RF). rewrite TF in TF'. injection TF' as <-. eexists. split; [exact RF|]. intros x Q. injection Q as <-. exact EX. }
    destruct X as (f & RF & EX).
    destruct (cell_core num_of ty o CODE_INVALID 0 z v (tx_fcn o) f (tx_freq o) None T (Hrange o Ho) BZ BV RF EX (or_intror (or_introl eq_refl))) as (g & E & _). exists g. exact E. }
  destruct (all_some_total no_rsig (mapi 0 (fun i (c : Z * Z) => sig_raw (ty =? 5) (znth no_rsat (fst c) rs) (znth no_dsig i gs)) cs)) as (gr & E2 & LR2 & F2).
  { rewrite len_mapi, cs_len. intros i Hi. rewrite (znth_mapi _ (0, 0)) by (rewrite cs_len; exact Hi). rewrite Z.add_0_l.
    destruct (cell_at i Hi) as (o & Ho & EC & CR & _). rewrite EC. cbn [fst]. rewrite <- CR, FG by exact Ho. apply SG. exact Ho. }
  rewrite len_mapi, cs_len in LR2. rewrite len_mapi, cs_len in F2. exists gr. split; [exact E1|]. split; [exact LR|]. split; [exact E2|]. split; [exact LR2|].
  intros o Ho. split; [apply SE; exact Ho|]. destruct (ranks o Ho) as (R & R2 & R3).
  assert (CN : 0 <= crank o < len l). { destruct FULL as (M & B & C & _). rewrite <- (cells_count code_of c l Hc Hplaced Hdup H32 H64 h M B C). exact R3. }
  destruct (cell_at (crank o) CN) as (o' & Ho' & EC & CR & _).
  assert (EQ : o' = o).
  { destruct FULL as (M & B & _). apply (cell_inj code_of c l Hc Hplaced Hdup H32 H64 h o' o M B Ho' Ho).
    pose proof (cell_range code_of c l Hc Hplaced H32 H64 h o M B Ho). pose proof (cell_range code_of c l Hc Hplaced H32 H64 h o' M B Ho').
    destruct (bits o Ho) as (_ & _ & B3). destruct (bits o' Ho') as (_ & _ & B3'). apply (rank_inj (cell_mask h)); [exact B3'|exact B3|lia|lia|exact CR]. }
  subst o'. specialize (F2 (crank o) CN). rewrite (znth_mapi _ (0, 0)) in F2 by (rewrite cs_len; exact CN). rewrite Z.add_0_l in F2. rewrite EC in F2. cbn [fst] in F2. rewrite FG in F2 by exact Ho. exact F2.
Qed.

(** ** reception *)
Variable rc : rcfg.
Hypothesis FMr : fcn_map_ok (rc_fcns rc).
Hypothesis AG : maps_agree fcns (rc_fcns rc).
Variable os : list pobs.
Hypothesis INC : forall o, In o l -> In o os.
Definition rx_fcn (o : pobs) : Z := if cons_eqb c cGLO then if ty =? 4 then znth 255 (o_sat o) (rc_fcns rc) else tx_fcn o mod 16 else 255.
Lemma rx_freq o : In o l -> let rf := signal_freq carrier (sig_of o) (rx_fcn o) in
  (tx_freq o = None \/ rf = None \/ rf = tx_freq o) /\ (freq_known code_of fcns o -> freq_known_rx code_of ty (rc_fcns rc) o -> rf <> None).
Proof.
  intros Ho. cbv zeta. destruct (sig_facts o Ho) as (NI & _ & G). unfold rx_fcn, freq_known_rx.
  destruct (cons_eqb c cGLO) eqn:CG.
  2:{ split; [right; right; unfold tx_freq, tx_fcn; rewrite CG; reflexivity|]. intros KN _. destruct (tx_known o Ho KN) as (fr & E & _). unfold tx_freq, tx_fcn in E. rewrite CG in E. rewrite E. discriminate. }
  pose proof CG as CG'. apply cons_eqb_spec in CG'. destruct (fcn_range o Ho CG') as [FR _]. pose proof (glo_sat o Ho CG') as SR.
  destruct (Z.eqb_spec ty 4) as [T4|T4].
  - assert (KX : znth 255 (o_sat o) fcns = tx_fcn o) by (unfold tx_fcn, fcn_of; rewrite CG; reflexivity).
    destruct (AG (o_sat o) SR) as [E|[E|E]]; [| |rewrite E in KX; split; [left; unfold tx_freq; rewrite <- KX; apply freq_none; [exact G|reflexivity]|intros KN _; exfalso; apply (KN G); exact E]].
    + rewrite E. split; [right; left; apply freq_none; [exact G|reflexivity]|]. intros _ Q. exfalso. apply (Q G T4). exact E.
    + rewrite E, KX. split; [right; right; reflexivity|]. intros KN _. destruct (tx_known o Ho KN) as (fr & E' & _). fold (tx_freq o). rewrite E'. discriminate.
  - destruct FR as [FR|FR].
    + rewrite Z.mod_small by lia. split; [right; right; reflexivity|]. intros KN _. destruct (tx_known o Ho KN) as (fr & E' & _). fold (tx_freq o). rewrite E'. discriminate.
    + split; [left; unfold tx_freq; rewrite FR; apply freq_none; [exact G|reflexivity]|]. intros KN _ _. apply (KN G). unfold tx_fcn in FR. rewrite CG in FR. exact FR.
Qed.
Lemma unsupported_eq k : unsupported_signal k = discarded_signal k. Proof. destruct k; reflexivity. Qed.
Lemma cell_result o r0 g hd : In o l -> sat_entry o r0 -> sig_raw (ty =? 5) r0 (obs_sig (tx_freq o) o) = Some g ->
  mh_num hd = mh_num h -> sat_mask hd = sat_mask h -> sig_mask hd = sig_mask h ->
  exists opt, cell_to_sbp carrier num_of rc hd (rank o) (grank o) (sat_value ty (cons_eqb c cGLO) (rx_sat (ty =? 5) r0)) (sig_value ty (rx_sat (ty =? 5) r0) (rx_sig (ty =? 5) g)) = Some opt /\
    outcome carrier code_of ty fcns (rc_fcns rc) (rc_masked rc) os o opt.
Proof.
  intros Ho (o1 & z & v & I1 & ST1 & ER & BZ & NZ & BV & VV) EG HN HS HG.
  destruct sizes as (L1 & L2 & L3 & _). destruct (placed_eq code_of c l Hplaced o Ho) as (P1 & P2 & P3). destruct (bits o Ho) as (B1 & B2 & _). destruct (sig_facts o Ho) as (NI & CO & GL).
  assert (SC : msm_signal_to_code hd (grank o) = Some (sig_of o)).
  { destruct (index_to_signal h (sig_of o) (sigp code_of c o) L2) as (s & E1 & _ & E2); [rewrite TC; exact P3|exact B2|]. destruct (sig_id_of _ _ _ P3) as (ID & _).
    unfold code_to_msm_signal_index in E1. rewrite TC, ID in E1. rewrite count_take in E1 by lia. injection E1 as <-. unfold msm_signal_to_code in *. rewrite HN, HG. exact E2. }
  assert (SP : msm_sat_to_prn hd (rank o) = Some (o_sat o)).
  { destruct (index_to_sat h (o_sat o) (satp c o) L1) as (s & E1 & _ & E2); [rewrite TC; exact Hc|rewrite TC; exact P2|exact B1|]. destruct (sat_id_of _ _ _ Hc P2) as (ID & _).
    unfold prn_to_msm_sat_index in E1. rewrite TC, ID in E1. rewrite count_take in E1 by lia. injection E1 as <-. unfold msm_sat_to_prn in *. rewrite HN, HS. exact E2. }
  assert (PN : o_sat o =? PRN_INVALID = false). { apply Z.eqb_neq. destruct P2 as [R _]. unfold PRN_INVALID. destruct c; cbn in R; lia. }
  unfold cell_to_sbp, cell_to_sbp_b, no_bias. change (cell_obs_b num_of d0 d0 d0) with (cell_obs num_of). rewrite SC, SP, PN. replace (code_eqb (sig_of o) CODE_INVALID) with false by (symmetry; apply not_true_iff_false; rewrite code_eqb_spec; exact NI).
  cbn [orb]. rewrite CO, unsupported_eq. rewrite HN, TC.
  (* the frequency of the sender *)
  rewrite Forall_forall in Hrange. pose proof (Hrange o Ho) as RG. pose proof (Hrange o1 I1) as RG1.
  assert (X : exists f, 1100000000 <= f <= 1700000000 /\ (forall fr, tx_freq o = Some fr -> dexact fr (scaled f 0)) /\ (freq_known code_of fcns o -> f = hz o /\ tx_freq o <> None)).
  { destruct (tx_freq o) as [fr|] eqn:TF.
    - assert (KN : freq_known code_of fcns o) by (apply tx_unknown; [exact Ho|rewrite TF; discriminate]).
      destruct (tx_known o Ho KN) as (fr' & TF' & EX & RF). rewrite TF in TF'. injection TF' as <-. exists (hz o). split; [exact RF|]. split; [intros x Q; injection Q as <-; exact EX|]. intros _. split; [reflexivity|discriminate].
    - exists 1200000000. split; [lia|]. split; [discriminate|]. intros KN. destruct (tx_known o Ho KN) as (fr & TF' & _). congruence. }
  destruct X as (f & RF & EX & KF). destruct (rx_freq o Ho) as (HRF & KRX).
  destruct (cell_core num_of ty o (sig_of o) (o_sat o) z v (tx_fcn o) f (tx_freq o) (signal_freq carrier (sig_of o) (rx_fcn o)) T RG BZ BV RF EX HRF) as (g1 & E1 & CORE & NEAR).
  rewrite ER in EG |- *. rewrite EG in E1. injection E1 as <-. 
  set (G := sig_value ty (rx_sat (ty =? 5) (mkrsat (z / 1024) (tx_fcn o) (z mod 1024) v)) (rx_sig (ty =? 5) g)) in *.
  assert (NC : near_code code_of os o -> dv_pr G = true).
  { intros N. apply NEAR. specialize (N o1 (INC o1 I1)). destruct (sig_facts o1 I1) as (_ & CO1 & _). assert (SS : same_sat code_of o o1) by (split; [rewrite CO, CO1; reflexivity|exact ST1]). specialize (N SS).
    unfold range_m in N. unfold ms_of in *. apply Rabs_le. apply Rabs_le_inv in N, NZ. lra. }
  destruct (rc_masked rc c) eqn:MK; cbn [orb].
  { exists None. split; [reflexivity|]. left. left. exists c. split; [exact CO|exact MK]. }
  destruct (discarded_signal (sig_of o)) eqn:DS; cbn [orb].
  { exists None. split; [reflexivity|]. left. right. exact DS. }
  destruct (dv_pr G) eqn:DP; cbn [negb].
  2:{ exists None. split; [reflexivity|]. right. intros N. specialize (NC N). discriminate NC. }
  destruct (CORE eq_refl) as (o' & EO & Q1 & Q2 & Q3 & Q4 & Q5 & Q6 & Q7 & Q8 & Q9 & Q10).
  (* the receiver's channel number *)
  assert (FC : exists b, msm_get_glo_fcn hd (rank o) (ds_fcn (sat_value ty (cons_eqb c cGLO) (rx_sat (ty =? 5) (mkrsat (z / 1024) (tx_fcn o) (z mod 1024) v)))) (rc_fcns rc) =
     Some (b, if cons_eqb c cGLO then rx_fcn o else 0)).
  { unfold msm_get_glo_fcn. rewrite HN, TC, SP. unfold rx_fcn. destruct (cons_eqb c cGLO) eqn:CG; cbn [negb]; [|eexists; reflexivity].
    pose proof CG as CG'. apply cons_eqb_spec in CG'. pose proof (glo_sat o Ho CG') as SR. destruct (fcn_range o Ho CG') as [FR _]. destruct FMr as [LR _]. rewrite LR.
    unfold sat_value. cbn [ds_fcn andb]. destruct T as [T4|T5].
    - replace ((ty =? 5) || (ty =? 7)) with false by (rewrite T4; reflexivity). replace (ty =? 4) with true by (rewrite T4; reflexivity). cbn [negb]. rewrite Z.eqb_refl.
      replace ((0 <=? o_sat o) && (o_sat o <? 29)) with true by lia. replace (znth 0 (o_sat o) (rc_fcns rc)) with (znth 255 (o_sat o) (rc_fcns rc)) by (unfold znth; apply nth_indep; unfold len in LR; lia).
      eexists. reflexivity.
    - replace ((ty =? 5) || (ty =? 7)) with true by (rewrite T5; reflexivity). replace (ty =? 4) with false by (rewrite T5; reflexivity). replace (ty =? 5) with true by (rewrite T5; reflexivity). cbn [negb].
      unfold rx_sat. cbn [r_info]. change (2 ^ 4) with 16. replace (tx_fcn o mod 16 =? MSM_GLO_FCN_UNKNOWN) with false by (unfold MSM_GLO_FCN_UNKNOWN; pose proof (Z.mod_pos_bound (tx_fcn o) 16); lia).
      eexists. reflexivity. }
  destruct FC as (b & ->). cbv zeta.
  replace (if cons_eqb c cGLO then if cons_eqb c cGLO then rx_fcn o else 0 else MSM_GLO_FCN_UNKNOWN) with (rx_fcn o) by (unfold rx_fcn; destruct (cons_eqb c cGLO); reflexivity).
  rewrite EO. exists (Some o'). split; [reflexivity|]. cbn [outcome]. split.
  { intros [(c' & A & B)|A]; [|congruence]. rewrite CO in A. injection A as <-. congruence. }
  split.
  - split; [exact Q1|]. split; [unfold Sbp2Msm_spec.sig_of at 1; rewrite Q2, NUM; reflexivity|]. split; [exact Q3|]. split; [exact Q4|]. split; [exact Q5|]. split; [exact Q6|]. split; [exact Q7|exact Q8].
  - split.
    + intros F1 KN KR NP. destruct (KF KN) as [-> TN]. apply Q9; [exact F1|exact TN|apply KRX; assumption|].
      specialize (NP o1 (INC o1 I1)). destruct (sig_facts o1 I1) as (_ & CO1 & _). assert (SS : same_sat code_of o o1) by (split; [rewrite CO, CO1; reflexivity|exact ST1]). specialize (NP SS).
      unfold phase_m, range_m, freq in NP. unfold phase_ms, cyc. fold (hz o) in NP. unfold ms_of in NZ. unfold C_M_S in NP.
      assert (HF : (IZR (hz o) <> 0)%R) by (apply not_0_IZR; unfold hz in *; lia).
      assert (PE : (IZR (o_Li o * 256 + o_Lf o) / 256 * 1000 / IZR (hz o) = (IZR (o_Li o) + IZR (o_Lf o) / 256) * 299792458 / IZR (hz o) * (1000 / 299792458))%R) by (rewrite plus_IZR, mult_IZR; field; exact HF).
      rewrite PE. set (w := ((IZR (o_Li o) + IZR (o_Lf o) / 256) * 299792458 / IZR (hz o))%R) in *. apply Rabs_le. apply Rabs_le_inv in NP, NZ. lra.
    + intros T5 F3 KN NR. destruct (KF KN) as [-> TN]. apply Q10; [exact T5|exact F3|exact TN|apply KRX; [exact KN|intros _ T4; lia]|].
      destruct (VV T5 F3 KN) as (o2 & I2 & ST2 & F2 & K2 & N2). specialize (NR o2 (INC o2 I2)). destruct (sig_facts o2 I2) as (_ & CO2 & _). assert (SS : same_sat code_of o o2) by (split; [rewrite CO, CO2; reflexivity|exact ST2]). specialize (NR SS F2 K2).
      unfold rate_m_s, freq in NR. fold (hz o) (hz o2) in NR. unfold C_M_S in NR. unfold rate_R, dop in *.
      assert (HF : (IZR (hz o) <> 0)%R) by (apply not_0_IZR; unfold hz in *; lia). destruct (tx_known o2 I2 K2) as (_ & _ & _ & RF2). fold (hz o2) in RF2. assert (HF2 : (IZR (hz o2) <> 0)%R) by (apply not_0_IZR; lia).
      assert (PE : forall a b q, (IZR q <> 0)%R -> (- (IZR (a * 256 + b) / 256 * 299792458 / IZR q) = - ((IZR a + IZR b / 256) * 299792458 / IZR q))%R) by (intros a b' q Q; rewrite plus_IZR, mult_IZR; field; exact Q).
      rewrite PE in N2 |- * by assumption. set (w := ((IZR (o_Di o) + IZR (o_Df o) / 256) * 299792458 / IZR (hz o))%R) in *. set (w2 := ((IZR (o_Di o2) + IZR (o_Df o2) / 256) * 299792458 / IZR (hz o2))%R) in *.
      apply Rabs_le. apply Rabs_le_inv in NR, N2. lra.
Qed.

(** ** the whole message *)
Hypothesis HK : msm_hdr_ok ty (trim h).
Lemma ns_le_obs : ns <= len l.
Proof.
  destruct FULL as (_ & (BS & _) & _). unfold ns. transitivity (distinct_sats l).
  - apply (sat_count' c l). intros x Hx Bx. apply BS; assumption.
  - unfold distinct_sats, len. pose proof (NoDup_incl_length (NoDup_nodup Z.eq_dec (map o_sat l)) (fun x Hx => proj1 (nodup_In Z.eq_dec _ x) Hx)) as Q. rewrite map_length in Q. lia.
Qed.
Lemma trim_bits : 0 < byte_len (msm_bits ty (trim h)) <= 678 /\ num_cells (trim h) = len l /\ 8 * byte_len (msm_bits ty (trim h)) <= 240 + 99 * len l.
Proof.
  destruct sizes as (L1 & L2 & L3 & N1 & N2 & N3 & E1 & E2). destruct (hdr_counts _ _ HK) as (A & B & C & D & E & _).
  assert (NC : num_cells (trim h) = len l). { rewrite D. cbn [trim cell_mask]. fold ns ng. rewrite trim_count. destruct FULL as (M & B' & C' & _). apply (cells_count code_of c l Hc Hplaced Hdup H32 H64 h M B' C'). }
  assert (LC : len l <= 64). { destruct FULL as (M & B' & C' & _). rewrite <- (cells_count code_of c l Hc Hplaced Hdup H32 H64 h M B' C'). pose proof (set_count_range (cell_mask h)). lia. }
  pose proof ns_le_obs as NL. assert (X : 0 < byte_len (msm_bits ty (trim h)) <= 678 /\ 8 * byte_len (msm_bits ty (trim h)) <= 240 + 99 * len l); [|tauto]. unfold msm_bits. rewrite NC. change (num_sats (trim h)) with (num_sats h). change (num_sigs (trim h)) with (num_sigs h). rewrite E1, E2. pose proof (len_nonneg l).
  unfold byte_len. set (p := ns * ng) in *. destruct (ty =? 5); lia.
Qed.
Lemma encode_trim ss gs buff : encode_msm_d ty (mkdmsg h ss gs) buff = encode_msm_d ty (mkdmsg (trim h) ss gs) buff.
Proof.
  destruct sizes as (L1 & L2 & L3 & N1 & N2 & N3 & E1 & E2). unfold encode_msm_d. cbn [dm_hdr dm_sats dm_sigs].
  change (num_sats (trim h)) with (num_sats h). change (num_sigs (trim h)) with (num_sigs h). change (cell_mask_size (trim h)) with (cell_mask_size h). change (mh_num (trim h)) with (mh_num h).
  assert (HF : hdr_msm_fields (trim h) = hdr_msm_fields h).
  { unfold hdr_msm_fields. change (cell_mask_size (trim h)) with (cell_mask_size h). cbn [trim mh_num mh_stn mh_tow mh_multiple mh_iods mh_reserved mh_steering mh_ext_clock mh_div mh_smooth sat_mask sig_mask cell_mask].
    do 5 f_equal. fold ns ng. rewrite take_take. f_equal. unfold cell_mask_size. rewrite E1, E2. change (set_count (sat_mask h) * set_count (sig_mask h)) with (ns * ng). rewrite Z.mod_small by lia. rewrite Z.min_id. reflexivity. }
  rewrite HF, E1, E2. change (cell_mask (trim h)) with (take (ns * ng) (cell_mask h)). rewrite cells_trim. reflexivity.
Qed.
Lemma Forall2_znth {A B} (R : A -> B -> Prop) (da : A) (db : B) a : forall b, len a = len b -> (forall i, 0 <= i < len a -> R (znth da i a) (znth db i b)) -> Forall2 R a b.
Proof.
  induction a as [|x a IH]; intros [|y b] L H; try (unfold len in L; cbn in L; lia); [constructor|]. rewrite !len_cons in L. pose proof (len_nonneg a).
  constructor; [apply (H 0); rewrite len_cons; lia|]. apply IH; [lia|]. intros i Hi. specialize (H (i + 1)). rewrite len_cons in H. specialize (H ltac:(lia)).
  unfold znth in *. replace (Z.to_nat (i + 1)) with (S (Z.to_nat i)) in H by lia. exact H.
Qed.
Lemma one_message : exists dm, values carrier code_of fcns m = Some dm /\ 
  forall buff, bytes buff -> 678 <= len buff -> exists b n dm', encode_msm_d ty dm buff = Ok (b, n) /\ 0 < n <= 678 /\ 8 * n <= 240 + 99 * len l /\ len b = len buff /\ bytes b /\
    run_dec (decode_msm_d ty) (take n b) = Ok dm' /\ dm_hdr dm' = decoded_hdr (trim h) /\
    exists ord opts, Permutation ord l /\ Forall2 (outcome carrier code_of ty fcns (rc_fcns rc) (rc_masked rc) os) ord opts /\
      to_sbp carrier num_of rc dm' = Some (flat_map (fun r => match r with Some o => [o] | None => [] end) opts).
Proof.
  destruct values_ok as (ss & gs & EV & LS & LG & FS & FG). exists (mkdmsg h ss gs). split; [exact EV|]. intros buff BB LB.
  destruct sizes as (L1 & L2 & L3 & N1 & N2 & N3 & E1 & E2). destruct trim_bits as (BL & NC & BO).
  destruct (raws ss gs LS LG FS FG) as (rs & gr & A1 & LR & A2 & LGR & EACH).
  assert (CT : cells (num_sats (trim h)) (num_sigs (trim h)) (cell_mask (trim h)) = cs).
  { change (num_sats (trim h)) with (num_sats h). change (num_sigs (trim h)) with (num_sigs h). change (cell_mask (trim h)) with (take (ns * ng) (cell_mask h)). rewrite E1, E2. apply cells_trim. }
  destruct (encode_decode ty (trim h) rs gr T HK) with (dsats := ss) (dsigs := gs) (buff := buff) as (b & EN & LB' & BB' & DE).
  { rewrite LR. symmetry. exact E1. }
  { rewrite LGR. symmetry. exact NC. }
  { change (num_sats (trim h)) with (num_sats h). rewrite E1. exact A1. }
  { rewrite CT. exact A2. }
  { exact BB. }
  { lia. }
  exists b, (byte_len (msm_bits ty (trim h))), (msg_value ty (decoded_hdr (trim h), map (rx_sat (ty =? 5)) rs, map (rx_sig (ty =? 5)) gr)).
  split; [rewrite encode_trim; exact EN|]. split; [exact BL|]. split; [exact BO|]. split; [exact LB'|]. split; [exact BB'|]. split; [exact DE|]. split; [reflexivity|].
  destruct FULL as (MS & BT & CF & CA & LSS & LSG & (S1 & S2 & S3)). rewrite Forall_forall in CA.
  assert (LL : len l <= 64) by (rewrite <- (cells_count code_of c l Hc Hplaced Hdup H32 H64 h MS BT CF); pose proof (set_count_range (cell_mask h)); lia).
  set (dobs := mkpobs 0 0 0 0 0 0 0 0 0 0). pose proof (len_nonneg l) as LN.
  destruct (all_some_total dobs (take (len l) (om_sigs m))) as (ord & EO & LO & FO).
  { rewrite len_take. intros i Hi. rewrite znth_take by lia. destruct (cell_at i ltac:(lia)) as (o & _ & _ & _ & Q). exists o. exact Q. }
  rewrite len_take in LO. rewrite len_take in FO. replace (Z.min (Z.max 0 (len l)) (len (om_sigs m))) with (len l) in LO, FO by lia.
  assert (FO' : forall i, 0 <= i < len l -> znth None i (om_sigs m) = Some (znth dobs i ord)) by (intros i Hi; rewrite <- FO by exact Hi; rewrite znth_take by lia; reflexivity).
  (* each cell *)
  set (dm' := msg_value ty (decoded_hdr (trim h), map (rx_sat (ty =? 5)) rs, map (rx_sig (ty =? 5)) gr)).
  assert (DH : dm_hdr dm' = decoded_hdr (trim h)) by reflexivity.
  assert (CT' : cells (num_sats (decoded_hdr (trim h))) (num_sigs (decoded_hdr (trim h))) (cell_mask (decoded_hdr (trim h))) = cs) by exact CT.
  assert (DS : forall i, 0 <= i < ns -> znth no_dsat i (dm_sats dm') = sat_value ty (cons_eqb c cGLO) (rx_sat (ty =? 5) (znth no_rsat i rs))).
  { intros i Hi. unfold dm', msg_value. cbn [dm_sats]. change (mh_num (decoded_hdr (trim h))) with (mh_num h). rewrite TC. rewrite (znth_map _ no_rsat) by (rewrite len_map; lia). rewrite (znth_map _ no_rsat) by lia. reflexivity. }
  assert (DG : forall i o, 0 <= i < len l -> In o l -> znth (0, 0) i cs = (rank o, grank o) -> znth no_dsig i (dm_sigs dm') = sig_value ty (rx_sat (ty =? 5) (znth no_rsat (rank o) rs)) (rx_sig (ty =? 5) (znth no_rsig i gr))).
  { intros i o Hi Ho EC. unfold dm', msg_value. cbn [dm_sigs]. rewrite CT'. rewrite (znth_mapi _ (0, 0)) by (rewrite cs_len; exact Hi). rewrite Z.add_0_l, EC. cbn [fst].
    destruct (ranks o Ho) as (R & _). rewrite (znth_map _ no_rsat) by lia. rewrite (znth_map _ no_rsig) by lia. reflexivity. }
  assert (ONE : forall i, 0 <= i < len l -> exists opt, cell_to_sbp carrier num_of rc (decoded_hdr (trim h)) (fst (znth (0, 0) i cs)) (snd (znth (0, 0) i cs)) (znth no_dsat (fst (znth (0, 0) i cs)) (dm_sats dm')) (znth no_dsig i (dm_sigs dm')) = Some opt /\
     outcome carrier code_of ty fcns (rc_fcns rc) (rc_masked rc) os (znth dobs i ord) opt).
  { intros i Hi. destruct (cell_at i Hi) as (o & Ho & EC & CR & SG). subst i. rewrite FO' in SG by exact Hi. assert (SG' : znth dobs (crank o) ord = o) by congruence. rewrite SG'. rewrite (DG (crank o) o Hi Ho EC). rewrite EC. cbn [fst snd]. destruct (ranks o Ho) as (R & _). rewrite DS by exact R.
    destruct (EACH o Ho) as [SE SR]. apply cell_result; [exact Ho|exact SE|exact SR|reflexivity|reflexivity|reflexivity]. }
  destruct (all_some_total None (mapi 0 (fun i (c : Z * Z) => cell_to_sbp carrier num_of rc (decoded_hdr (trim h)) (fst c) (snd c) (znth no_dsat (fst c) (dm_sats dm')) (znth no_dsig i (dm_sigs dm'))) cs)) as (opts & EP & LP & FP).
  { rewrite len_mapi, cs_len. intros i Hi. rewrite (znth_mapi _ (0, 0)) by (rewrite cs_len; exact Hi). rewrite Z.add_0_l. destruct (ONE i Hi) as (opt & E & _). exists opt. exact E. }
  rewrite len_mapi, cs_len in LP. rewrite len_mapi, cs_len in FP.
  exists ord, opts. split; [|split].
  - apply Permutation_sym. apply NoDup_Permutation_bis.
    + apply (l_nodup code_of l Hdup).
    + unfold len in LO. lia.
    + intros o Ho. destruct (ranks o Ho) as (_ & _ & R3). assert (CN : 0 <= crank o < len l) by (rewrite <- (cells_count code_of c l Hc Hplaced Hdup H32 H64 h MS BT CF); exact R3).
      destruct (CA o Ho) as (_ & _ & _ & S & _). change (znth None (crank o) (om_sigs m) = Some o) in S. rewrite FO' in S by exact CN. injection S as <-. unfold znth. apply nth_In. unfold len in *. lia.
  - apply (Forall2_znth _ dobs None); [lia|]. intros i Hi. rewrite LO in Hi. destruct (ONE i Hi) as (opt & E & OC). specialize (FP i Hi). rewrite (znth_mapi _ (0, 0)) in FP by (rewrite cs_len; exact Hi). rewrite Z.add_0_l in FP.
    rewrite E in FP. injection FP as <-. exact OC.
  - unfold to_sbp, to_sbp_b. change (cell_to_sbp_b carrier num_of no_bias) with (cell_to_sbp carrier num_of). rewrite DH, CT', EP. reflexivity.
Qed.
End One.
