From Verif Require Import Base RtcmMsm_model RtcmMsm_spec RtcmMsm_proofs Signals_model Signals_spec Signals_proofs Time_model Sbp2Rtcm_model Sbp2Msm_model Sbp2Msm_spec.

(** ** masks as sets *)
Fixpoint setpos (k : Z) (mask : list bool) : list Z :=
  match mask with [] => [] | b :: r => (if b then [k] else []) ++ setpos (k + 1) r end.
Lemma setpos_len mask : forall k, len (setpos k mask) = set_count mask.
Proof.
  unfold set_count. induction mask as [|b r IH]; intros k; cbn [setpos filter]; [reflexivity|]. rewrite len_app, IH. destruct b; rewrite ?len_cons, ?len_nil; lia.
Qed.
Lemma setpos_in mask : forall k x, In x (setpos k mask) <-> k <= x < k + len mask /\ znth false (x - k) mask = true.
Proof.
  induction mask as [|b r IH]; intros k x; cbn [setpos]; [rewrite len_nil; split; [intros []|lia]|].
  rewrite in_app_iff, IH, len_cons. pose proof (len_nonneg r). split.
  - intros [H1|[R H1]].
    + destruct b; [|destruct H1]. destruct H1 as [<-|[]]. split; [lia|]. rewrite Z.sub_diag. reflexivity.
    + split; [lia|]. unfold znth in *. replace (Z.to_nat (x - k)) with (S (Z.to_nat (x - (k + 1)))) by lia. exact H1.
  - intros [R H1]. destruct (Z.eq_dec x k) as [->|N].
    + left. rewrite Z.sub_diag in H1. unfold znth in H1. cbn in H1. subst b. left. reflexivity.
    + right. split; [lia|]. unfold znth in *. replace (Z.to_nat (x - k)) with (S (Z.to_nat (x - (k + 1)))) in H1 by lia. exact H1.
Qed.
Lemma setpos_nodup mask : forall k, NoDup (setpos k mask).
Proof.
  induction mask as [|b r IH]; intros k; cbn [setpos]; [constructor|]. destruct b; cbn [app]; [|apply IH]. constructor; [|apply IH].
  rewrite setpos_in. lia.
Qed.
Lemma map_nodup {A B} (g : A -> B) l : (forall x y, In x l -> In y l -> g x = g y -> x = y) -> NoDup l -> NoDup (map g l).
Proof.
  intros I N. induction N as [|x l NI N IH]; cbn [map]; [constructor|]. constructor.
  - intros H. apply in_map_iff in H. destruct H as (y & E & Hy). apply I in E; [subst; contradiction|right; exact Hy|left; reflexivity].
  - apply IH. intros a b Ha Hb. apply I; right; assumption.
Qed.
Lemma count_bound {B} (dec : forall a b : B, {a = b} + {a <> b}) (g : Z -> B) mask l :
  (forall x, 0 <= x < len mask -> znth false x mask = true -> In (g x) l) ->
  (forall x y, znth false x mask = true -> znth false y mask = true -> 0 <= x < len mask -> 0 <= y < len mask -> g x = g y -> x = y) ->
  set_count mask <= len (nodup dec l).
Proof.
  intros H I. rewrite <- (setpos_len mask 0). rewrite <- (len_map g). unfold len. apply inj_le. apply NoDup_incl_length.
  - apply map_nodup; [|apply setpos_nodup]. intros x y Hx Hy. apply setpos_in in Hx. apply setpos_in in Hy. rewrite Z.sub_0_r in *. apply I; intuition lia.
  - intros b Hb. apply in_map_iff in Hb. destruct Hb as (x & <- & Hx). apply setpos_in in Hx. rewrite Z.sub_0_r in Hx. apply nodup_In. apply H; intuition lia.
Qed.

(** ** the loops, one constellation at a time *)
Fixpoint foldo {A S} (f : A -> S -> option S) (l : list A) (s : S) : option S :=
  match l with [] => Some s | x :: l => match f x s with None => None | Some s => foldo f l s end end.

Section P.
Variable code_of : Z -> code.
Notation sig_of := (sig_of code_of).
Notation obs_of := (obs_of code_of).
Notation placed := (placed code_of).

Lemma each_total f os : forall ms, Forall (fun o => cons_of (sig_of o) <> None) os ->
  (forall c, exists m, foldo f (obs_of c os) (ms c) = Some m) ->
  exists ms', each code_of f os ms = Some ms' /\ forall c, foldo f (obs_of c os) (ms c) = Some (ms' c).
Proof.
  induction os as [|o os IH]; intros ms F H; cbn [each].
  - exists ms. split; [reflexivity|]. intros c. reflexivity.
  - inversion F as [|? ? N F']; subst. fold (sig_of o). destruct (cons_of (sig_of o)) as [c0|] eqn:E; [|contradiction].
    destruct (H c0) as (m & Hm). unfold Sbp2Msm_spec.obs_of in Hm. cbn [filter] in Hm. rewrite E in Hm. rewrite (proj2 (cons_eqb_spec c0 c0) eq_refl) in Hm. cbn [foldo] in Hm.
    destruct (f o (ms c0)) as [m1|] eqn:Fo; [|discriminate].
    destruct (IH (setm ms c0 m1) F') as (ms' & A & B).
    + intros c. unfold setm. destruct (cons_eqb c0 c) eqn:Ec.
      * apply cons_eqb_spec in Ec. subst c. exists m. exact Hm.
      * destruct (H c) as (m2 & H2). unfold Sbp2Msm_spec.obs_of in H2. cbn [filter] in H2. rewrite E, Ec in H2. exists m2. exact H2.
    + exists ms'. split; [exact A|]. intros c. unfold Sbp2Msm_spec.obs_of. cbn [filter]. rewrite E. specialize (B c). unfold setm in B.
      destruct (cons_eqb c0 c) eqn:Ec.
      * apply cons_eqb_spec in Ec. subst c. cbn [foldo]. rewrite Fo. exact B.
      * exact B.
Qed.
Lemma each_inv f os : forall ms ms', each code_of f os ms = Some ms' -> forall c, foldo f (obs_of c os) (ms c) = Some (ms' c).
Proof.
  induction os as [|o os IH]; intros ms ms' H c; cbn [each] in H.
  - injection H as <-. reflexivity.
  - fold (sig_of o) in H. unfold Sbp2Msm_spec.obs_of. cbn [filter]. destruct (cons_of (sig_of o)) as [c0|] eqn:E; [|discriminate].
    destruct (f o (ms c0)) as [m1|] eqn:Fo; [|discriminate]. specialize (IH _ _ H c). unfold setm in IH.
    destruct (cons_eqb c0 c) eqn:Ec; [|exact IH]. apply cons_eqb_spec in Ec. subst c. cbn [foldo]. rewrite Fo. exact IH.
Qed.

(** ** one constellation *)
Section One.
Variables (c : cons) (l : list pobs).
Hypothesis Hc : c <> cINVALID.
Hypothesis Hplaced : Forall (fun o => exists i j, placed c o i j) l.
Hypothesis Hdup : NoDup (map (fun o => (o_sat o, sig_of o)) l).
Hypothesis H32 : distinct_sats l <= 32.
Hypothesis H64 : distinct_sats l * distinct_sigs code_of l <= 64.

Definition satp (o : pobs) : Z := o_sat o - first_prn c.
Definition sigp (o : pobs) : Z := match code_to_msm_signal_id (sig_of o) c with Some j => j | None => -1 end.
Lemma placed_eq o : In o l -> placed c o (satp o) (sigp o).
Proof.
  intros Ho. rewrite Forall_forall in Hplaced. destruct (Hplaced o Ho) as (i & j & P1 & P2 & P3). split; [exact P1|].
  unfold satp, sigp. destruct (sig_id_of _ _ _ P3) as (-> & _). destruct P2 as [R ->]. split; [split; [exact R|reflexivity]|exact P3].
Qed.
Lemma pos_range o : In o l -> 0 <= satp o < 64 /\ 0 <= sigp o < 32.
Proof.
  intros Ho. destruct (placed_eq o Ho) as (_ & P2 & P3). destruct (sat_id_of _ _ _ Hc P2) as (_ & _ & R). destruct (sig_id_of _ _ _ P3) as (_ & R' & _). lia.
Qed.
Lemma pos_inj o o' : In o l -> In o' l -> satp o = satp o' -> sigp o = sigp o' -> o = o'.
Proof.
  intros Ho Ho' E1 E2. destruct (placed_eq o Ho) as (_ & _ & P3). destruct (placed_eq o' Ho') as (_ & _ & P3').
  rewrite E2 in P3. assert (K : sig_of o = sig_of o').
  { unfold sig_pos in *. destruct (table_complete c (sigp o' + 1) (sig_of o)) as (T & _); [apply in_or_app; left; exact P3|].
    destruct (table_complete c (sigp o' + 1) (sig_of o')) as (T' & _); [apply in_or_app; left; exact P3'|]. congruence. }
  assert (S : o_sat o = o_sat o') by (unfold satp in E1; lia).
  revert Ho Ho'. clear -Hdup K S. induction l as [|x r IH]; intros Ho Ho'; [destruct Ho|].
  cbn [map] in Hdup. inversion Hdup as [|? ? NI N]; subst. destruct Ho as [->|Ho], Ho' as [->|Ho'].
  - reflexivity.
  - exfalso. apply NI. apply in_map_iff. exists o'. split; [congruence|exact Ho'].
  - exfalso. apply NI. apply in_map_iff. exists o. split; [congruence|exact Ho].
  - apply IH; assumption.
Qed.

Definition bits_from (done : list pobs) (h : mhdr) : Prop :=
  (forall x, 0 <= x -> znth false x (sat_mask h) = true <-> exists o, In o done /\ x = satp o) /\
  (forall x, 0 <= x -> znth false x (sig_mask h) = true <-> exists o, In o done /\ x = sigp o).
Lemma sat_count h : (forall x, 0 <= x -> znth false x (sat_mask h) = true -> exists o, In o l /\ x = satp o) -> set_count (sat_mask h) <= distinct_sats l.
Proof.
  intros H. apply (count_bound Z.eq_dec (fun x => x + first_prn c)).
  - intros x R B. destruct (H x ltac:(lia) B) as (o & Ho & ->). unfold satp. replace (o_sat o - first_prn c + first_prn c) with (o_sat o) by lia. apply in_map. exact Ho.
  - intros; lia.
Qed.
Lemma sig_count mask : (forall x, 0 <= x -> znth false x mask = true -> exists o, In o l /\ x = sigp o) -> set_count mask <= distinct_sigs code_of l.
Proof.
  intros H.
  assert (G : forall x, 0 <= x -> znth false x mask = true -> exists o, In o l /\ x = sigp o /\ get_msm_code c (x + 1) = sig_of o).
  { intros x R B. destruct (H x R B) as (o & Ho & ->). exists o. split; [exact Ho|]. split; [reflexivity|]. destruct (placed_eq o Ho) as (_ & _ & P3).
    apply (table_complete c (sigp o + 1) (sig_of o)). apply in_or_app. left. exact P3. }
  apply (count_bound code_eq_dec (fun x => get_msm_code c (x + 1))).
  - intros x R B. destruct (G x ltac:(lia) B) as (o & Ho & _ & ->). apply in_map. exact Ho.
  - intros x y Bx By Rx Ry E. destruct (G x ltac:(lia) Bx) as (o & Ho & -> & E1). destruct (G y ltac:(lia) By) as (o' & Ho' & -> & E2).
    cbn beta in E. rewrite E1, E2 in E. unfold sigp. rewrite E. reflexivity.
Qed.
Lemma sat_count' mask : (forall x, 0 <= x -> znth false x mask = true -> exists o, In o l /\ x = satp o) -> set_count mask <= distinct_sats l.
Proof.
  intros H. apply (count_bound Z.eq_dec (fun x => x + first_prn c)).
  - intros x R B. destruct (H x ltac:(lia) B) as (o & Ho & ->). unfold satp. replace (o_sat o - first_prn c + first_prn c) with (o_sat o) by lia. apply in_map. exact Ho.
  - intros; lia.
Qed.

Lemma pass1 : forall rest done m, l = done ++ rest -> to_constellation (mh_num (om_hdr m)) = c -> building (om_hdr m) -> bits_from done (om_hdr m) ->
  exists h', foldo (to_header code_of) rest m = Some (with_hdr m h') /\ building h' /\ same_fields (om_hdr m) h' /\ cell_mask h' = cell_mask (om_hdr m) /\ bits_from l h'.
Proof.
  induction rest as [|o rest IH]; intros done m E Tc B Bits.
  - rewrite app_nil_r in E. subst done. exists (om_hdr m). cbn [foldo]. split; [destruct m; reflexivity|]. split; [exact B|]. split; [repeat split|]. split; [reflexivity|exact Bits].
  - assert (Ho : In o l) by (rewrite E; apply in_or_app; right; left; reflexivity).
    assert (Hd : forall x, In x done -> In x l) by (intros x Hx; rewrite E; apply in_or_app; left; exact Hx).
    destruct (placed_eq o Ho) as (P1 & P2 & P3). destruct (pos_range o Ho) as [R1 R2].
    pose proof (add_to_header_spec (om_hdr m) (sig_of o) (o_sat o) (satp o) (sigp o) B) as A. cbv zeta in A. rewrite Tc in A. specialize (A Hc P2 P3).
    cbn [foldo]. unfold to_header at 1. fold (sig_of o). destruct Bits as [BS BG]. destruct A as [(h' & -> & B' & SF & CM & S1 & S2)|(h' & _ & _ & _ & _ & _ & _ & _ & BIG)].
    + destruct (IH (done ++ [o]) (with_hdr m h')) as (h2 & F2 & B2 & SF2 & CM2 & Bits2).
      * rewrite E, <- app_assoc. reflexivity.
      * cbn [with_hdr om_hdr]. destruct SF as (-> & _). exact Tc.
      * exact B'.
      * cbn [with_hdr om_hdr]. split.
        -- intros x Hx. rewrite S1 by lia. rewrite orb_true_iff, Z.eqb_eq, BS by lia. split.
           ++ intros [->|(o' & H1 & H2)]; [exists o|exists o']; (split; [apply in_or_app|]); [right; left; reflexivity|reflexivity|left; exact H1|exact H2].
           ++ intros (o' & H1 & H2). apply in_app_or in H1. destruct H1 as [H1|[<-|[]]]; [right; exists o'; auto|left; exact H2].
        -- intros x Hx. rewrite S2 by lia. rewrite orb_true_iff, Z.eqb_eq, BG by lia. split.
           ++ intros [->|(o' & H1 & H2)]; [exists o|exists o']; (split; [apply in_or_app|]); [right; left; reflexivity|reflexivity|left; exact H1|exact H2].
           ++ intros (o' & H1 & H2). apply in_app_or in H1. destruct H1 as [H1|[<-|[]]]; [right; exists o'; auto|left; exact H2].
      * exists h2. cbn [with_hdr om_hdr] in *. split; [exact F2|]. split; [exact B2|]. split.
        -- unfold same_fields in *. intuition congruence.
        -- split; [congruence|exact Bits2].
    + exfalso. destruct B as ((L1 & L2 & L3) & _ & _).
      assert (X1 : set_count (sat_mask (om_hdr m)) + (if znth false (satp o) (sat_mask (om_hdr m)) then 0 else 1) <= distinct_sats l).
      { destruct (znth false (satp o) (sat_mask (om_hdr m))) eqn:Bi.
        - rewrite Z.add_0_r. apply sat_count'. intros x Hx Bx. apply BS in Bx; [|lia]. destruct Bx as (o' & H1 & H2). exists o'. split; [apply Hd; exact H1|exact H2].
        - rewrite <- set_count_zupd with (i := satp o) by (try lia; exact Bi). apply sat_count'. intros x Hx Bx. rewrite znth_zupd in Bx by lia.
          destruct (Z.eqb_spec x (satp o)) as [->|]; [exists o; split; [exact Ho|reflexivity]|]. apply BS in Bx; [|lia]. destruct Bx as (o' & H1 & H2). exists o'. split; [apply Hd; exact H1|exact H2]. }
      assert (X2 : set_count (sig_mask (om_hdr m)) + (if znth false (sigp o) (sig_mask (om_hdr m)) then 0 else 1) <= distinct_sigs code_of l).
      { destruct (znth false (sigp o) (sig_mask (om_hdr m))) eqn:Bi.
        - rewrite Z.add_0_r. apply sig_count. intros x Hx Bx. apply BG in Bx; [|lia]. destruct Bx as (o' & H1 & H2). exists o'. split; [apply Hd; exact H1|exact H2].
        - rewrite <- set_count_zupd with (i := sigp o) by (try lia; exact Bi). apply sig_count. intros x Hx Bx. rewrite znth_zupd in Bx by lia.
          destruct (Z.eqb_spec x (sigp o)) as [->|]; [exists o; split; [exact Ho|reflexivity]|]. apply BG in Bx; [|lia]. destruct Bx as (o' & H1 & H2). exists o'. split; [apply Hd; exact H1|exact H2]. }
      pose proof (set_count_range (sat_mask (om_hdr m))). pose proof (set_count_range (sig_mask (om_hdr m))).
      assert (Q : forall b : bool, 0 <= (if b then 0 else 1)) by (intros []; lia).
      pose proof (Q (znth false (satp o) (sat_mask (om_hdr m)))). pose proof (Q (znth false (sigp o) (sig_mask (om_hdr m)))). nia.
Qed.
Definition cells_from (done : list pobs) (h : mhdr) : Prop :=
  forall x, 0 <= x -> znth false x (cell_mask h) = true <-> exists o, In o done /\ x = cell_of h (satp o) (sigp o).
Lemma l_nodup : NoDup l.
Proof. apply (NoDup_map_inv (fun o => (o_sat o, sig_of o))). exact Hdup. Qed.
Lemma grid_le h : bits_from l h -> set_count (sat_mask h) <= 32 /\ set_count (sat_mask h) * set_count (sig_mask h) <= 64.
Proof.
  intros [BS BG]. assert (X1 : set_count (sat_mask h) <= distinct_sats l) by (apply sat_count'; intros x Hx Bx; apply BS; assumption).
  assert (X2 : set_count (sig_mask h) <= distinct_sigs code_of l) by (apply sig_count; intros x Hx Bx; apply BG; assumption).
  pose proof (set_count_range (sat_mask h)). pose proof (set_count_range (sig_mask h)). nia.
Qed.
Lemma cell_range h o : mask_sizes h -> bits_from l h -> In o l -> 0 <= cell_of h (satp o) (sigp o) < 64.
Proof.
  intros M B Ho. destruct (pos_range o Ho) as [R1 R2]. destruct (grid_le h B) as [_ G]. destruct B as [BS BG].
  apply cell_of_range; try assumption; [apply BS; [lia|exists o; auto]|apply BG; [lia|exists o; auto]].
Qed.
Lemma cell_inj h o o' : mask_sizes h -> bits_from l h -> In o l -> In o' l -> cell_of h (satp o) (sigp o) = cell_of h (satp o') (sigp o') -> o = o'.
Proof.
  intros M B Ho Ho' E. destruct (pos_range o Ho) as [R1 R2]. destruct (pos_range o' Ho') as [R1' R2']. destruct (grid_le h B) as [_ G]. destruct B as [BS BG].
  apply cell_of_inj in E; try assumption; try (apply BS; [lia|eexists; split; [|reflexivity]; assumption]); try (apply BG; [lia|eexists; split; [|reflexivity]; assumption]).
  destruct E as [E1 E2]. apply pos_inj; assumption.
Qed.

Lemma pass2 : forall rest done m, l = done ++ rest -> to_constellation (mh_num (om_hdr m)) = c -> mask_sizes (om_hdr m) -> bits_from l (om_hdr m) ->
  cells_from done (om_hdr m) ->
  exists h', foldo (to_cell_mask code_of) rest m = Some (with_hdr m h') /\ mask_sizes h' /\ same_fields (om_hdr m) h' /\
    sat_mask h' = sat_mask (om_hdr m) /\ sig_mask h' = sig_mask (om_hdr m) /\ cells_from l h'.
Proof.
  induction rest as [|o rest IH]; intros done m E Tc M Bits C.
  - rewrite app_nil_r in E. subst done. exists (om_hdr m). cbn [foldo]. split; [destruct m; reflexivity|]. split; [exact M|]. split; [repeat split|]. split; [reflexivity|]. split; [reflexivity|exact C].
  - assert (Ho : In o l) by (rewrite E; apply in_or_app; right; left; reflexivity).
    assert (Hd : forall x, In x done -> In x l) by (intros x Hx; rewrite E; apply in_or_app; left; exact Hx).
    destruct (placed_eq o Ho) as (P1 & P2 & P3). destruct (pos_range o Ho) as [R1 R2].
    pose proof (cell_range _ _ M Bits Ho) as CR. destruct (grid_le _ Bits) as [_ G].
    pose proof Bits as [BS BG].
    pose proof (add_cell_spec (om_hdr m) (sig_of o) (o_sat o) (satp o) (sigp o) M) as A. cbv zeta in A. rewrite Tc in A.
    specialize (A Hc P2 P3 G (proj2 (BS (satp o) ltac:(lia)) ltac:(exists o; auto)) (proj2 (BG (sigp o) ltac:(lia)) ltac:(exists o; auto))).
    cbn [foldo]. unfold to_cell_mask at 1. fold (sig_of o). rewrite A.
    destruct (znth false (cell_of (om_hdr m) (satp o) (sigp o)) (cell_mask (om_hdr m))) eqn:T.
    { exfalso. apply C in T; [|lia]. destruct T as (o' & H1 & H2). apply cell_inj in H2; auto. subst o'.
      pose proof l_nodup as N. rewrite E in N. apply NoDup_remove_2 in N. apply N. apply in_or_app. left. exact H1. }
    destruct (IH (done ++ [o]) (with_hdr m (set_cell (om_hdr m) (cell_of (om_hdr m) (satp o) (sigp o))))) as (h2 & F2 & M2 & SF2 & S2 & G2 & C2).
    + rewrite E, <- app_assoc. reflexivity.
    + exact Tc.
    + destruct M as (L1 & L2 & L3). repeat split; cbn [with_hdr om_hdr set_cell sat_mask sig_mask cell_mask]; try assumption. rewrite len_zupd. exact L3.
    + split; [exact BS|exact BG].
    + intros x Hx. cbn [with_hdr om_hdr]. change (cell_of (set_cell (om_hdr m) (cell_of (om_hdr m) (satp o) (sigp o)))) with (cell_of (om_hdr m)).
      cbn [set_cell cell_mask]. destruct M as (L1 & L2 & L3). rewrite znth_zupd by lia. destruct (Z.eqb_spec x (cell_of (om_hdr m) (satp o) (sigp o))) as [->|N].
      * split; [|reflexivity]. intros _. exists o. split; [apply in_or_app; right; left; reflexivity|reflexivity].
      * rewrite (C x Hx). split.
        -- intros (o' & H1 & H2). exists o'. split; [apply in_or_app; left; exact H1|exact H2].
        -- intros (o' & H1 & H2). apply in_app_or in H1. destruct H1 as [H1|[<-|[]]]; [exists o'; auto|contradiction].
    + exists h2. cbn [with_hdr om_hdr] in *. split; [exact F2|]. split; [exact M2|]. split; [exact SF2|]. split; [exact S2|]. split; [exact G2|exact C2].
Qed.

(** rank of a set bit *)
Lemma rank_inj mask x y : znth false x mask = true -> znth false y mask = true -> 0 <= x < len mask -> 0 <= y < len mask ->
  set_count (take x mask) = set_count (take y mask) -> x = y.
Proof. intros Bx By Rx Ry E. apply (nth_set_unique mask (set_count (take x mask) + 1)); repeat split; try lia; assumption. Qed.
Lemma rank_lt mask x : znth false x mask = true -> 0 <= x < len mask -> 0 <= set_count (take x mask) < set_count mask.
Proof. intros B R. assert (N : nth_set mask (set_count (take x mask) + 1) x) by (repeat split; try lia; exact B). apply nth_set_range in N. lia. Qed.

(** the observations recorded for a satellite entry are those of the satellite; every recorded signal entry is one of the observations *)
Definition sats_from (done : list pobs) (m : omsg) : Prop :=
  (forall i o, 0 <= i -> In o (znth [] i (om_sats m)) -> In o done /\ set_count (take (satp o) (sat_mask (om_hdr m))) = i) /\
  (forall i o, 0 <= i -> znth None i (om_sigs m) = Some o -> In o done) /\
  (forall o, In o done -> In o (znth [] (set_count (take (satp o) (sat_mask (om_hdr m)))) (om_sats m))).
Lemma pass3 h : to_constellation (mh_num h) = c -> mask_sizes h -> bits_from l h -> cells_from l h ->
  forall rest done m, l = done ++ rest -> om_hdr m = h -> len (om_sats m) = 32 -> len (om_sigs m) = 64 ->
  Forall (fun o => carries m o (satp o) (sigp o)) done -> sats_from done m ->
  exists m', foldo (to_signal_data code_of) rest m = Some m' /\ om_hdr m' = h /\ Forall (fun o => carries m' o (satp o) (sigp o)) l /\
    len (om_sats m') = 32 /\ len (om_sigs m') = 64 /\ sats_from l m'.
Proof.
  intros Tc M Bits C. pose proof M as (L1 & L2 & L3). destruct (grid_le h Bits) as [G32 G64]. pose proof Bits as [BS BG].
  assert (BIT : forall o, In o l -> znth false (satp o) (sat_mask h) = true /\ znth false (sigp o) (sig_mask h) = true /\
    znth false (cell_of h (satp o) (sigp o)) (cell_mask h) = true).
  { intros o Ho. destruct (pos_range o Ho) as [R1 R2]. pose proof (cell_range h o M Bits Ho). split; [apply BS; [lia|exists o; auto]|]. split; [apply BG; [lia|exists o; auto]|].
    apply C; [lia|exists o; auto]. }
  assert (C64 : set_count (cell_mask h) <= 64) by (pose proof (set_count_range (cell_mask h)); lia).
  induction rest as [|o rest IH]; intros done m E Hm LS LG F SF.
  - rewrite app_nil_r in E. subst done. exists m. split; [reflexivity|]. split; [exact Hm|]. split; [exact F|]. split; [exact LS|]. split; [exact LG|exact SF].
  - assert (Ho : In o l) by (rewrite E; apply in_or_app; right; left; reflexivity).
    assert (Hd : forall x, In x done -> In x l) by (intros x Hx; rewrite E; apply in_or_app; left; exact Hx).
    destruct (placed_eq o Ho) as (P1 & P2 & P3). destruct (pos_range o Ho) as [R1 R2]. pose proof (cell_range h o M Bits Ho) as CR.
    destruct (sat_id_of _ _ _ Hc P2) as (E1 & _). destruct (sig_id_of _ _ _ P3) as (E2 & _).
    destruct (BIT o Ho) as (B1 & B2 & B3).
    cbn [foldo]. unfold to_signal_data at 1. fold (sig_of o). rewrite Hm. unfold prn_to_msm_sat_index, code_to_msm_signal_index. rewrite Tc, E1, E2. cbv zeta.
    rewrite !count_take, num_sigs_eq by lia. fold (cell_of h (satp o) (sigp o)). rewrite Z.mod_small by lia.
    replace (64 <=? cell_of h (satp o) (sigp o)) with false by lia. rewrite B3. cbn [negb].
    pose proof (rank_lt _ _ B1 ltac:(lia)) as RK. pose proof (rank_lt _ _ B3 ltac:(lia)) as RC.
    replace (32 <=? set_count (take (satp o) (sat_mask h))) with false by lia.
    rewrite ?count_take by lia.
    set (m1 := mkomsg h (zupd (set_count (take (satp o) (sat_mask h))) (fun l => o :: l) (om_sats m))
                 (zupd (set_count (take (cell_of h (satp o) (sigp o)) (cell_mask h))) (fun _ => Some o) (om_sigs m))).
    apply (IH (done ++ [o]) m1).
    + rewrite E, <- app_assoc. reflexivity.
    + reflexivity.
    + cbn [m1 om_sats]. rewrite len_zupd. exact LS.
    + cbn [m1 om_sigs]. rewrite len_zupd. exact LG.
    + apply Forall_app. split.
      * rewrite Forall_forall in F |- *. intros o' Ho'. destruct (F o' Ho') as (Q1 & Q2 & Q3 & Q4 & (o2 & r & Q5 & Q6)). rewrite Hm in *.
        pose proof (Hd o' Ho') as Hl. destruct (BIT o' Hl) as (B1' & B2' & B3'). destruct (pos_range o' Hl) as [R1' R2']. pose proof (cell_range h o' M Bits Hl) as CR'.
        pose proof (rank_lt _ _ B1' ltac:(lia)) as RK'. pose proof (rank_lt _ _ B3' ltac:(lia)) as RC'.
        unfold carries. cbn [m1 om_hdr om_sigs om_sats]. split; [exact Q1|]. split; [exact Q2|]. split; [exact Q3|]. split.
        -- rewrite znth_zupd by lia. destruct (Z.eqb_spec (set_count (take (cell_of h (satp o') (sigp o')) (cell_mask h))) (set_count (take (cell_of h (satp o) (sigp o)) (cell_mask h)))) as [EQ|_]; [|exact Q4].
           exfalso. apply rank_inj in EQ; try assumption; try lia. apply cell_inj in EQ; auto. subst o'.
           pose proof l_nodup as N. rewrite E in N. apply NoDup_remove_2 in N. apply N. apply in_or_app. left. exact Ho'.
        -- rewrite znth_zupd by lia. destruct (Z.eqb_spec (set_count (take (satp o') (sat_mask h))) (set_count (take (satp o) (sat_mask h)))) as [EQ|_].
           ++ apply rank_inj in EQ; try assumption; try lia. eexists o, _. split; [reflexivity|]. unfold satp in EQ. lia.
           ++ exists o2, r. split; assumption.
      * constructor; [|constructor]. unfold carries. cbn [m1 om_hdr om_sigs om_sats]. split; [exact B1|]. split; [exact B2|]. split; [exact B3|]. split.
        -- rewrite znth_zupd, Z.eqb_refl by lia. reflexivity.
        -- rewrite znth_zupd, Z.eqb_refl by lia. eexists o, _. split; reflexivity.
    + destruct SF as (SF1 & SF2 & SF3). split; [|split].
      * intros i o' Hi Ho'. cbn [m1 om_sats om_hdr] in *. destruct (Z.lt_ge_cases i 32) as [LT|GE].
        -- rewrite znth_zupd in Ho' by lia. destruct (Z.eqb_spec i (set_count (take (satp o) (sat_mask h)))) as [EQ|NE].
           ++ rewrite <- EQ in Ho'. destruct Ho' as [<- | Ho']; [split; [apply in_or_app; right; left; reflexivity|symmetry; exact EQ]|].
              destruct (SF1 i o' Hi Ho') as [X Y]. rewrite Hm in Y. split; [apply in_or_app; left; exact X|exact Y].
           ++ destruct (SF1 i o' Hi Ho') as [X Y]. rewrite Hm in Y. split; [apply in_or_app; left; exact X|exact Y].
        -- exfalso. rewrite znth_default in Ho' by (rewrite len_zupd; lia). exact Ho'.
      * intros i o' Hi Ho'. cbn [m1 om_sigs om_hdr] in *. rewrite znth_zupd in Ho' by lia. apply in_or_app.
        destruct (i =? set_count (take (cell_of h (satp o) (sigp o)) (cell_mask h))); [injection Ho' as <-; right; left; reflexivity|left; eapply SF2; [exact Hi|exact Ho']].
      * intros o' Ho'. cbn [m1 om_sats om_hdr]. assert (Hl : In o' l) by (apply in_app_or in Ho'; destruct Ho' as [Ho'|[<-|[]]]; [apply Hd; exact Ho'|exact Ho]).
        destruct (BIT o' Hl) as (B1' & _). destruct (pos_range o' Hl) as [R1' _]. pose proof (rank_lt _ _ B1' ltac:(lia)) as RK'. rewrite znth_zupd by lia.
        apply in_app_or in Ho'. destruct Ho' as [Ho'|[<-|[]]]; [|rewrite Z.eqb_refl; left; reflexivity].
        specialize (SF3 o' Ho'). rewrite Hm in SF3.
        destruct (Z.eqb_spec (set_count (take (satp o') (sat_mask h))) (set_count (take (satp o) (sat_mask h)))) as [EQ|_]; [right; rewrite <- EQ; exact SF3|exact SF3].
Qed.

Lemma cells_count h : mask_sizes h -> bits_from l h -> cells_from l h -> set_count (cell_mask h) = len l.
Proof.
  intros M Bits C. pose proof M as (_ & _ & L3). rewrite <- (setpos_len (cell_mask h) 0). unfold len. f_equal. rewrite <- (map_length (fun o => cell_of h (satp o) (sigp o)) l). apply Nat.le_antisymm.
  - apply NoDup_incl_length; [apply setpos_nodup|]. intros x Hx. apply setpos_in in Hx. rewrite Z.sub_0_r in Hx. destruct Hx as [R B]. apply C in B; [|lia].
    destruct B as (o & Ho & ->). apply in_map_iff. exists o. auto.
  - apply NoDup_incl_length.
    + apply map_nodup; [|apply l_nodup]. intros x y Hx Hy E. apply (cell_inj h); assumption.
    + intros x Hx. apply in_map_iff in Hx. destruct Hx as (o & <- & Ho). apply setpos_in. rewrite Z.sub_0_r. pose proof (cell_range h o M Bits Ho). split; [lia|]. apply C; [lia|exists o; auto].
Qed.
End One.
End P.
