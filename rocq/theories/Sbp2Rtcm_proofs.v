From Coq Require Import Reals Lra Sorted.
From Flocq Require Import Core.
From Verif Require Import Base Bits_model Bytestream_model Bytestream_proofs RtcmMsm_model Signals_model Double_model Double_proofs Esf_proofs Sbp2Rtcm_model Sbp2Rtcm_spec ObsBuffer_spec ObsBuffer_proofs.
Open Scope Z_scope.

(** ** time differences *)
Lemma Rabs_def2b x a : (Rabs x <= a -> - a <= x <= a)%R.
Proof. intros H. apply Rabs_le_inv. exact H. Qed.
Definition abs_ms (h : ohdr) : Z := 604800000 * oh_wn h + oh_tow h.
Lemma bp k : (0 <= k)%Z -> bpow radix2 (- k) = (/ IZR (2 ^ k))%R.
Proof. intros. rewrite bpow_opp, <- pow_bpow by assumption. reflexivity. Qed.
Lemma diff_value a b : 0 <= oh_tow a < 604800000 -> 0 <= oh_tow b < 604800000 -> Z.abs (oh_wn a - oh_wn b) <= 3550 ->
  exists d, sbp_diff_time a b = Some d /\ dfin d = true /\ (abs_ms a < abs_ms b -> (dR d <= - / 2048)%R) /\ (abs_ms a = abs_ms b -> dR d = 0%R) /\
    (abs_ms b < abs_ms a -> (/ 2048 <= dR d)%R).
Proof.
  intros Ra Rb W. unfold sbp_diff_time, WEEK_SECS. set (p := (oh_wn a - oh_wn b) * 604800).
  assert (P : Z.abs p <= 2147040000) by (unfold p; lia).
  cbv zeta. replace ((p <? - 2 ^ 31) || (2 ^ 31 - 1 <? p)) with false by lia.
  eexists. split; [reflexivity|].
  assert (B0 : forall z, (0 <= z)%Z -> (Rabs (IZR z) <= bpow radix2 1000)%R -> True) by trivial. clear B0.
  assert (BIG : forall x, (Rabs x <= IZR (2 ^ 40))%R -> (Rabs x <= bpow radix2 1000)%R).
  { intros x H. eapply Rle_trans; [exact H|]. rewrite pow_bpow by lia. apply bpow_le. lia. }
  assert (D : forall t, 0 <= t < 604800000 -> dfin (ddiv (dofZ t) (dofZ 1000)) = true /\
    (Rabs (dR (ddiv (dofZ t) (dofZ 1000)) - IZR t / 1000) <= / 17179869184)%R /\ dR (ddiv (dofZ t) (dofZ 1000)) = rnd (IZR t / 1000)).
  { intros t R. destruct (dofZ_exact t) as [F1 V1]; [lia|]. destruct (dofZ_exact 1000) as [F2 V2]; [lia|].
    assert (Q : (0 <= IZR t < 604800000)%R) by (split; [apply IZR_le; lia | apply IZR_lt; lia]).
    destruct (ddiv_spec (dofZ t) (dofZ 1000)) as [F V]; [exact F1 | rewrite V2; lra | |].
    - rewrite V1, V2. apply BIG. rewrite Rabs_right by lra. apply Rle_trans with 1000000%R; [lra|]. apply IZR_le. lia.
    - rewrite V1, V2 in V. split; [exact F|]. split; [|exact V]. rewrite V.
      replace (/ 17179869184)%R with (bpow radix2 (20 - 54)) by (change (20 - 54) with (-(34)); rewrite bp by lia; reflexivity).
      apply rnd_err; [lia|]. rewrite Rabs_right by lra. rewrite <- pow_bpow by lia. change (2 ^ 20) with 1048576. lra. }
  destruct (D _ Ra) as (FA & EA & VA). destruct (D _ Rb) as (FB & EB & VB). clear D.
  set (x := ddiv (dofZ (oh_tow a)) (dofZ 1000)) in *. set (y := ddiv (dofZ (oh_tow b)) (dofZ 1000)) in *.
  assert (QA : (0 <= IZR (oh_tow a) < 604800000)%R) by (split; [apply IZR_le; lia | apply IZR_lt; lia]).
  assert (QB : (0 <= IZR (oh_tow b) < 604800000)%R) by (split; [apply IZR_le; lia | apply IZR_lt; lia]).
  assert (XY : (Rabs (dR x - dR y) < 604801)%R).
  { apply Rabs_def1; apply Rabs_def2b in EA; apply Rabs_def2b in EB; lra. }
  destruct (dsub_spec x y FA FB) as [FS VS].
  { apply BIG. apply Rlt_le. eapply Rlt_trans; [exact XY|]. apply IZR_lt. lia. }
  assert (ES : (Rabs (dR (dsub x y) - (dR x - dR y)) <= / 17179869184)%R).
  { rewrite VS. replace (/ 17179869184)%R with (bpow radix2 (20 - 54)) by (change (20 - 54) with (-(34)); rewrite bp by lia; reflexivity).
    apply rnd_err; [lia|]. rewrite <- pow_bpow by lia. change (2 ^ 20) with 1048576. lra. }
  destruct (dofZ_exact p) as [FP VP]; [lia|].
  assert (QP : (Rabs (IZR p) <= 2147040000)%R) by (rewrite <- abs_IZR; apply IZR_le; exact P).
  destruct (dadd_spec (dsub x y) (dofZ p) FS FP) as [FT VT].
  { rewrite VP. apply BIG. apply Rabs_def2b in EA. apply Rabs_def2b in EB. apply Rabs_def2b in ES. apply Rabs_def2b in QP. apply Rabs_def2 in XY.
    apply Rle_trans with 3000000000%R; [apply Rabs_le; lra|]. apply IZR_le. lia. }
  rewrite VP in VT.
  set (S := (dR (dsub x y) + IZR p)%R) in *. set (ex := IZR (abs_ms a - abs_ms b)).
  assert (EX : (Rabs (S - ex / 1000) <= 3 / 17179869184)%R).
  { unfold S, ex, abs_ms, p. rewrite !minus_IZR, !plus_IZR, !mult_IZR, minus_IZR.
    apply Rabs_def2b in EA. apply Rabs_def2b in EB. apply Rabs_def2b in ES. apply Rabs_le. lra. }
  assert (HALF : generic_format radix2 (FLT_exp (-1074) 53) (bpow radix2 (-11))).
  { apply generic_format_bpow. unfold FLT_exp. lia. }
  assert (H11 : bpow radix2 (-11) = (/ 2048)%R) by (change (-11) with (-(11)); rewrite bp by lia; reflexivity).
  apply Rabs_def2b in EX.
  split; [exact FT|]. rewrite VT. split; [|split].
  - intros L. assert (X1 : (ex <= -1)%R) by (apply IZR_le; lia).
    rewrite <- H11. rewrite <- (rnd_id (- bpow radix2 (-11))); [|apply generic_format_opp; exact HALF]. apply rnd_le. rewrite H11. lra.
  - intros E. assert (TT : oh_tow a = oh_tow b /\ oh_wn a = oh_wn b) by (unfold abs_ms in E; lia). destruct TT as [T1 T2].
    assert (PZ : p = 0) by (unfold p; lia).
    assert (SZ : S = 0%R). { unfold S. rewrite PZ, VS. unfold x, y. rewrite T1. unfold Rminus. rewrite Rplus_opp_r, (rnd_id 0); [lra|apply generic_format_0]. }
    rewrite SZ; apply rnd_id; apply generic_format_0.
  - intros G. assert (X1 : (1 <= ex)%R) by (apply IZR_le; lia).
    rewrite <- H11. rewrite <- (rnd_id (bpow radix2 (-11))); [|exact HALF]. apply rnd_le. rewrite H11. lra.
Qed.
Lemma diff_sign a b : 0 <= oh_tow a < 604800000 -> 0 <= oh_tow b < 604800000 -> Z.abs (oh_wn a - oh_wn b) <= 3550 ->
  exists d, sbp_diff_time a b = Some d /\ dltb d (dofZ 0) = (abs_ms a <? abs_ms b) /\ dgtb d (dofZ 0) = (abs_ms b <? abs_ms a).
Proof.
  intros Ra Rb W. destruct (diff_value a b Ra Rb W) as (d & E & FT & L & EQ & G). exists d. split; [exact E|].
  destruct (dofZ_exact 0) as [F0 V0]; [lia|]. unfold dgtb. rewrite !dltb_spec, V0 by assumption.
  destruct (Z.lt_trichotomy (abs_ms a) (abs_ms b)) as [H|[H|H]].
  - specialize (L H). split; [replace (abs_ms a <? abs_ms b) with true by lia; apply Rlt_bool_true; lra |
                              replace (abs_ms b <? abs_ms a) with false by lia; apply Rlt_bool_false; lra].
  - rewrite (EQ H), H, Z.ltb_irrefl, Rlt_bool_false by lra. split; reflexivity.
  - specialize (G H). split; [replace (abs_ms a <? abs_ms b) with false by lia; apply Rlt_bool_false; lra |
                              replace (abs_ms b <? abs_ms a) with true by lia; apply Rlt_bool_true; lra].
Qed.

(** ** sub-sequences *)
Lemma subseq_app {A} (a a' b b' : list A) : subseq a a' -> subseq b b' -> subseq (a ++ b) (a' ++ b').
Proof. intros H H'. eapply subseq_trans; [apply subseq_app_l; exact H'|apply subseq_app_r; exact H]. Qed.

(** ** the copy loop *)
Lemma land_pow x k : 0 <= k -> (Z.land x (2 ^ k) =? 0) = negb (Z.testbit x k).
Proof.
  intros K. destruct (Z.testbit x k) eqn:T; cbn [negb].
  - apply Z.eqb_neq. intros E. assert (B : Z.testbit (Z.land x (2 ^ k)) k = true) by (rewrite Z.land_spec, T, Z.pow2_bits_true by lia; reflexivity).
    rewrite E, Z.bits_0 in B. discriminate.
  - apply Z.eqb_eq. apply Z.bits_inj'. intros n Hn. rewrite Z.land_spec, Z.bits_0. rewrite Z.pow2_bits_eqb by lia.
    destruct (Z.eqb_spec k n) as [<-|]; [rewrite T; reflexivity|apply andb_false_r].
Qed.
Lemma wanted_eq o : (Z.land (o_flags o) FLAG_CODE_VALID =? 0) || negb (Z.land (o_flags o) FLAG_RAIM_EXCLUSION =? 0) = negb (wanted o).
Proof.
  unfold FLAG_CODE_VALID, FLAG_RAIM_EXCLUSION, wanted. change 1 with (2 ^ 0) at 1. change 128 with (2 ^ 7). rewrite !land_pow by lia.
  destruct (Z.testbit (o_flags o) 0), (Z.testbit (o_flags o) 7); reflexivity.
Qed.
Lemma copy_loop_spec p n : forall i buf, len buf + Z.of_nat n <= 210 ->
  copy_loop p (Z.of_nat i) n buf = Some (buf ++ filter wanted (map (fun i => parse_obs p (Z.of_nat i)) (seq i n))).
Proof.
  induction n as [|n IH]; intros i buf L; cbn [copy_loop seq map filter]; [now rewrite app_nil_r|].
  cbv zeta. rewrite wanted_eq. replace (Z.of_nat i + 1) with (Z.of_nat (S i)) by lia. destruct (wanted (parse_obs p (Z.of_nat i))) eqn:W; cbn [negb].
  - unfold MAX_OBS_PER_EPOCH. replace (210 <=? len buf) with false by lia.
    assert (LB : len (buf ++ [parse_obs p (Z.of_nat i)]) = len buf + 1) by (rewrite len_app, len_cons, len_nil; lia). rewrite LB.
    destruct (Z.eqb_spec (len buf + 1) 210) as [E|N].
    + assert (n = 0%nat) by lia. subst n. cbn [seq map filter]. reflexivity.
    + rewrite IH by (rewrite LB; lia). rewrite <- app_assoc. reflexivity.
  - apply IH. lia.
Qed.
Lemma filter_len {A} (f : A -> bool) l : len (filter f l) <= len l.
Proof. induction l as [|x l IH]; cbn [filter]; [lia|]. destruct (f x); rewrite ?len_cons; lia. Qed.
Lemma wanted_len p : 11 <= len p <= 255 -> len (wanted_obs p) <= 14.
Proof.
  intros L. unfold wanted_obs. eapply Z.le_trans; [apply filter_len|]. unfold all_obs. rewrite len_map. unfold len at 1. rewrite seq_length. lia.
Qed.
Lemma rd_range p off n : bytes p -> 0 <= n -> 0 <= off -> off + n <= len p -> 0 <= rd p off n < 256 ^ n.
Proof.
  intros B N O L. unfold rd, sub. assert (BB : bytes (take n (drop off p))).
  { unfold bytes in *. unfold take, drop. apply Forall_forall. intros x Hx. rewrite Forall_forall in B. apply B.
    revert Hx. generalize (Z.to_nat n) as a. generalize (Z.to_nat off) as b. intros b a Hx.
    assert (In x (skipn b p)) as H1 by (rewrite <- (firstn_skipn a (skipn b p)); apply in_or_app; left; exact Hx).
    rewrite <- (firstn_skipn b p). apply in_or_app. right. exact H1. }
  pose proof (le_val_range _ BB) as R. rewrite len_take, len_drop in R. replace (Z.min (Z.max 0 n) (Z.max 0 (len p - Z.max 0 off))) with n in R by lia. exact R.
Qed.
Lemma hdr_range p : payload_ok p -> 0 <= oh_tow (parse_hdr p) < 604800000 /\ 0 <= oh_wn (parse_hdr p) < 65536 /\ 0 <= oh_n (parse_hdr p) < 256.
Proof.
  intros (B & L & T). cbn [parse_hdr oh_tow oh_wn oh_n] in *.
  pose proof (rd_range p 0 4 B ltac:(lia) ltac:(lia) ltac:(lia)). pose proof (rd_range p 8 2 B ltac:(lia) ltac:(lia) ltac:(lia)) as R2.
  pose proof (rd_range p 10 1 B ltac:(lia) ltac:(lia) ltac:(lia)) as R1. change (256 ^ 2) with 65536 in R2. change (256 ^ 1) with 256 in R1. lia.
Qed.
Lemma seq_fields p : payload_ok p -> seq_size (oh_n (parse_hdr p)) = total p /\ seq_counter (oh_n (parse_hdr p)) = position p /\
  0 <= total p <= 15 /\ 1 <= position p <= 16.
Proof.
  intros H. destruct (hdr_range p H) as (_ & _ & R). unfold seq_size, seq_counter, total, position.
  rewrite Z.shiftr_div_pow2 by lia. change (2 ^ 4) with 16. change 15 with (Z.ones 4) at 1. rewrite Z.land_ones by lia. change (2 ^ 4) with 16. lia.
Qed.

(** ** the assembling invariant: [g] are the messages in the buffer *)
Definition msg_ok (w : Z) (m : Z * list Z) : Prop :=
  payload_ok (snd m) /\ 1 <= total (snd m) /\ w <= oh_wn (parse_hdr (snd m)) <= w + 3550.
Notation want := (fun m : Z * list Z => wanted_obs (snd m)).
Record Inv (w : Z) (s : ost) (g : list (Z * list Z)) : Prop := {
  inv_ok : Forall (msg_ok w) g;
  inv_buf : os_buf s = flat_map want g;
  inv_seq : one_sequence g;
  inv_empty : os_buf s = [] -> g = [];
  inv_last : forall g0 m, g = g0 ++ [m] -> os_hdr s = parse_hdr (snd m) /\ total (snd m) <> position (snd m) /\
     len g <= position (snd m) /\ (total (snd m) < position (snd m) -> len g <= position (snd m) - 1) }.

Lemma buf_len w g : Forall (msg_ok w) g -> len (flat_map want g) <= 14 * len g.
Proof.
  induction 1 as [|m g (H & _) F IH]; cbn [flat_map]; [cbn; lia|]. rewrite len_app, len_cons. destruct H as (_ & L & _). pose proof (wanted_len _ L). lia.
Qed.
Lemma sorted_snoc {A} (R : A -> A -> Prop) l x : StronglySorted R l -> Forall (fun y => R y x) l -> StronglySorted R (l ++ [x]).
Proof.
  induction 1 as [|y l S IH F]; intros G; cbn [app]; [repeat constructor|]. inversion G; subst. constructor; [apply IH; assumption|].
  apply Forall_app. split; [exact F|repeat constructor; assumption].
Qed.
Lemma sorted_last {A} (R : A -> A -> Prop) l x : StronglySorted R (l ++ [x]) -> Forall (fun y => R y x) l.
Proof.
  induction l as [|y l IH]; intros S; [constructor|]. cbn [app] in S. inversion S as [|? ? S' F]; subst. apply Forall_app in F. destruct F as [_ F].
  inversion F; subst. constructor; [assumption|apply IH; assumption].
Qed.
Lemma list_last {A} (l : list A) : l <> [] -> exists l0 x, l = l0 ++ [x].
Proof. intros N. destruct (exists_last N) as (a & b & E). exists a, b. exact E. Qed.

Lemma list_eq_dec_nil {A} (l : list A) : {l = []} + {l <> []}.
Proof. destruct l; [left; reflexivity|right; discriminate]. Qed.
(** the message may follow the buffered ones *)
Definition follows (g : list (Z * list Z)) (p : list Z) : Prop :=
  forall g0 m, g = g0 ++ [m] -> msg_time (snd m) = msg_time p /\ total (snd m) = total p /\ position (snd m) < position p.
Lemma one_sequence_snoc g m : one_sequence g -> follows g (snd m) -> one_sequence (g ++ [m]).
Proof.
  intros [E S] F. destruct g as [|x g1]; [|].
  - split; [|repeat constructor]. intros a b [<-|[]] [<-|[]]; split; reflexivity.
  - destruct (list_last (x :: g1)) as (g0 & l & G); [discriminate|]. rewrite G in *. destruct (F g0 l eq_refl) as (F1 & F2 & F3). split.
    + assert (A : forall a, In a (g0 ++ [l]) -> msg_time (snd a) = msg_time (snd m) /\ total (snd a) = total (snd m)).
      { intros a Ha. destruct (E a l Ha ltac:(apply in_or_app; right; left; reflexivity)) as [-> ->]. split; assumption. }
      intros a b Ha Hb. apply in_app_or in Ha. apply in_app_or in Hb.
      destruct Ha as [Ha|[<-|[]]], Hb as [Hb|[<-|[]]].
      * apply E; assumption.
      * apply A. exact Ha.
      * destruct (A _ Hb) as [-> ->]. split; reflexivity.
      * split; reflexivity.
    + apply sorted_snoc; [exact S|]. apply Forall_app. split; [|repeat constructor; exact F3].
      apply sorted_last in S. eapply Forall_impl; [|exact S]. cbn beta. intros y Hy. lia.
Qed.

Lemma flush_inv w s g : Inv w s g -> exists s', flush s = (s', [mkepoch (os_sender s) (os_hdr s) (os_buf s)]) /\ os_sender s' = os_sender s /\ Inv w s' [] /\
  made_of g (mkepoch (os_sender s) (os_hdr s) (os_buf s)).
Proof.
  intros [I1 I2 I3 I4 I5]. eexists. split; [reflexivity|]. split; [reflexivity|]. split.
  - constructor; cbn [os_buf flat_map]; try reflexivity; try constructor.
    + intros a b [].
    + constructor.
    + exfalso. destruct g0; discriminate.
    + exfalso. destruct g0; discriminate.
  - split; [exact I3|]. split; [exact I2|]. intros m Hm. cbn [e_hdr].
    assert (N : g <> []) by (intros ->; exact Hm). destruct (list_last g N) as (g0 & l & G). destruct (I5 g0 l G) as (E & _). rewrite E.
    change (msg_time (snd l) = msg_time (snd m)). apply I3; [rewrite G; apply in_or_app; right; left; reflexivity|exact Hm].
Qed.

Lemma accept_ok w s g sd p : Inv w s g -> msg_ok w (sd, p) -> follows g p ->
  exists s' out gs g', accept s p = Ok (s', out) /\ Forall2 made_of gs out /\ Inv w s' g' /\ os_sender s' = os_sender s /\
    Forall (fun e => e_sender e = os_sender s) out /\
    subseq (concat gs ++ g') (g ++ [(sd, p)]).
Proof.
  intros I (P & T1 & W) F. cbn [snd] in *. destruct (seq_fields p P) as (S1 & S2 & R1 & R2).
  pose proof P as (_ & L & _). pose proof I as [I1 I2 I3 I4 I5].
  assert (LB : len (os_buf s) + 14 <= 210).
  { rewrite I2. destruct g as [|x g1]; [cbn; lia|]. destruct (list_last (x :: g1)) as (g0 & l & G); [discriminate|].
    destruct (I5 g0 l G) as (_ & Q1 & Q2 & Q3). destruct (F g0 l G) as (_ & F2 & F3).
    assert (OKl : msg_ok w l) by (rewrite Forall_forall in I1; apply I1; rewrite G; apply in_or_app; right; left; reflexivity).
    destruct OKl as (Pl & Tl & _). destruct (seq_fields (snd l) Pl) as (_ & _ & R1' & R2').
    eapply Z.le_trans; [apply Z.add_le_mono_r; apply (buf_len w); exact I1|]. lia. }
  unfold accept. cbv zeta. unfold HDR_LEN, OBS_LEN. replace (((len p - 11) / 17) mod 256) with ((len p - 11) / 17) by lia.
  pose proof (copy_loop_spec p (Z.to_nat ((len p - 11) / 17)) 0 (os_buf s) ltac:(lia)) as C. change (Z.of_nat 0) with 0 in C. rewrite C.
  fold (all_obs p). fold (wanted_obs p). rewrite S1, S2. clear C.
  assert (SEQ : one_sequence (g ++ [(sd, p)])) by (apply one_sequence_snoc; assumption).
  assert (BUF : os_buf s ++ wanted_obs p = flat_map want (g ++ [(sd, p)])).
  { rewrite flat_map_app, I2. cbn [flat_map snd]. rewrite app_nil_r. reflexivity. }
  set (s1 := mkost (os_sender s) (parse_hdr p) (os_buf s ++ wanted_obs p)).
  assert (OKS : Forall (msg_ok w) (g ++ [(sd, p)])) by (apply Forall_app; split; [exact I1|constructor; [split; [exact P|split; [exact T1|exact W]]|constructor]]).
  destruct (Z.eqb_spec (position p) (total p)) as [EQ|NE].
  - (* complete *)
    exists (mkost (os_sender s) (parse_hdr p) []), [mkepoch (os_sender s) (parse_hdr p) (os_buf s ++ wanted_obs p)], [g ++ [(sd, p)]], [].
    split; [reflexivity|]. split; [|split; [|split; [reflexivity|split; [repeat constructor|]]]].
    + constructor; [|constructor]. split; [exact SEQ|split; [exact BUF|]]. cbn [e_hdr]. intros m Hm. change (msg_time p = msg_time (snd m)).
      change p with (snd (sd, p)) at 1. apply SEQ; [apply in_or_app; right; left; reflexivity|exact Hm].
    + constructor; cbn [os_buf flat_map]; try reflexivity; try constructor; [intros ? ? []|constructor|exfalso; destruct g0; discriminate|exfalso; destruct g0; discriminate].
    + cbn [concat]. rewrite !app_nil_r. apply subseq_refl.
  - destruct (list_eq_dec_nil (os_buf s ++ wanted_obs p)) as [E|N].
    + (* nothing usable so far *)
      exists s1, [], [], []. split; [reflexivity|]. split; [constructor|]. split; [|split; [reflexivity|split; [constructor|constructor]]].
      constructor; cbn [s1 os_buf flat_map]; try reflexivity; try constructor; [exact E|intros ? ? []|constructor|exfalso; destruct g0; discriminate|exfalso; destruct g0; discriminate].
    + exists s1, [], [], (g ++ [(sd, p)]). split; [reflexivity|]. split; [constructor|]. split; [|split; [reflexivity|split; [constructor|apply subseq_refl]]].
      constructor; cbn [s1 os_buf os_hdr].
      * exact OKS.
      * exact BUF.
      * exact SEQ.
      * intros E. contradiction.
      * intros g0 m G. apply app_inj_tail in G. destruct G as [<- <-]. cbn [snd]. split; [reflexivity|]. split; [lia|].
        rewrite len_app, len_cons, len_nil. destruct g as [|x g1]; [cbn; lia|].
        destruct (list_last (x :: g1)) as (g0 & l & G); [discriminate|]. destruct (I5 g0 l G) as (_ & Q1 & Q2 & Q3). destruct (F g0 l G) as (_ & F2 & F3). lia.
Qed.

Definition from (s : Z) (g : list (Z * list Z)) : Prop := Forall (fun m => fst m = s) g.
Definition sent_by (g : list (Z * list Z)) (e : epoch) : Prop := from (e_sender e) g.
Lemma subseq_forall {A} (P : A -> Prop) a b : subseq a b -> Forall P b -> Forall P a.
Proof. induction 1; intros F; [constructor| |]; inversion F; subst; [auto|constructor; auto]. Qed.
Lemma concat_sent gs out sd : from sd (concat gs) -> Forall (fun e => e_sender e = sd) out -> Forall2 made_of gs out -> Forall2 sent_by gs out.
Proof.
  intros F E M. induction M as [|g e gs out M1 M IH]; [constructor|]. cbn [concat] in F. apply Forall_app in F. destruct F as [F1 F2]. inversion E; subst.
  constructor; [exact F1|apply IH; assumption].
Qed.

Lemma obs_tail_ok w s g sd p : Inv w s g -> msg_ok w (sd, p) ->
  exists s' out gs g',
    (if 0 <? len (os_buf s) then
          match sbp_diff_time (parse_hdr p) (os_hdr s) with
          | None => Ub
          | Some dt =>
              if dltb dt (dofZ 0) then Ok (s, [])
              else if dgtb dt (dofZ 0) then let '(s, o) := flush s in bind (accept s p) (fun '(s, o') => Ok (s, o ++ o'))
              else if negb (seq_size (oh_n (parse_hdr p)) =? seq_size (oh_n (os_hdr s))) || (seq_counter (oh_n (parse_hdr p)) <=? seq_counter (oh_n (os_hdr s))) then Ok (flush s)
              else accept s p
          end
        else accept s p) = Ok (s', out) /\ Forall2 made_of gs out /\ Inv w s' g' /\ os_sender s' = os_sender s /\
    Forall (fun e => e_sender e = os_sender s) out /\ subseq (concat gs ++ g') (g ++ [(sd, p)]).
Proof.
  intros I M. pose proof M as (P & T1 & W). cbn [snd] in *. pose proof I as [I1 I2 I3 I4 I5].
  destruct (Z.ltb_spec 0 (len (os_buf s))) as [LT|GE].
  - assert (N : g <> []) by (intros ->; rewrite I2 in LT; cbn in LT; lia).
    destruct (list_last g N) as (g0 & l & G). destruct (I5 g0 l G) as (EH & Q1 & Q2 & Q3). rewrite EH.
    assert (OKl : msg_ok w l) by (rewrite Forall_forall in I1; apply I1; rewrite G; apply in_or_app; right; left; reflexivity).
    destruct OKl as (Pl & Tl & Wl). destruct (seq_fields (snd l) Pl) as (S1 & S2 & _ & _). destruct (seq_fields p P) as (S3 & S4 & _ & _).
    rewrite S1, S2, S3, S4.
    destruct (hdr_range p P) as (RP & _). destruct (hdr_range (snd l) Pl) as (RL & _).
    destruct (diff_sign (parse_hdr p) (parse_hdr (snd l)) RP RL ltac:(lia)) as (d & -> & -> & ->).
    change (abs_ms (parse_hdr p)) with (msg_time p). change (abs_ms (parse_hdr (snd l))) with (msg_time (snd l)).
    destruct (Z.ltb_spec (msg_time p) (msg_time (snd l))) as [PAST|NP].
    { exists s, [], [], g. split; [reflexivity|]. split; [constructor|]. split; [exact I|]. split; [reflexivity|]. split; [constructor|]. apply subseq_prefix. }
    destruct (flush_inv w s g I) as (sf & FE & FS & FI & FM).
    destruct (Z.ltb_spec (msg_time (snd l)) (msg_time p)) as [FUT|SAME].
    { rewrite FE. destruct (accept_ok w sf [] sd p FI M) as (s' & out & gs & g' & A & B & C & D & E & H).
      { intros g1 m X. destruct g1; discriminate. }
      rewrite A. cbn [bind]. exists s', ([mkepoch (os_sender s) (os_hdr s) (os_buf s)] ++ out), (g :: gs), g'.
      split; [reflexivity|]. split; [constructor; assumption|]. split; [exact C|]. split; [congruence|]. split.
      - constructor; [reflexivity|]. eapply Forall_impl; [|exact E]. cbn beta. intros a ->. exact FS.
      - cbn [concat]. rewrite <- app_assoc. apply subseq_app_l. exact H. }
    destruct (negb (total p =? total (snd l)) || (position p <=? position (snd l))) eqn:BR.
    { rewrite FE. exists sf, [mkepoch (os_sender s) (os_hdr s) (os_buf s)], [g], []. split; [reflexivity|]. split; [constructor; [exact FM|constructor]|]. split; [exact FI|].
      split; [exact FS|]. split; [repeat constructor|]. cbn [concat]. rewrite !app_nil_r. apply subseq_prefix. }
    apply (accept_ok w s g sd p I M). intros g1 m X. rewrite G in X. apply app_inj_tail in X. destruct X as [<- <-]. lia.
  - assert (N : g = []) by (apply I4; apply len_zero_nil; pose proof (len_nonneg (os_buf s)); lia). subst g.
    apply (accept_ok w s [] sd p I M). intros g1 m X. destruct g1; discriminate.
Qed.

Lemma obs_cb_ok w s g sd p : Inv w s g -> msg_ok w (sd, p) ->
  exists s' out gs g', obs_cb s sd p = Ok (s', out) /\ Forall2 made_of gs out /\ Inv w s' g' /\ os_sender s' = sd /\
    subseq (concat gs ++ g') (g ++ [(sd, p)]) /\
    (from (os_sender s) g -> Forall2 sent_by gs out /\ from sd g').
Proof.
  intros I M. pose proof M as (P & _). cbn [snd] in P. unfold obs_cb. pose proof P as (_ & L & _). unfold HDR_LEN. replace (len p <? 11) with false by lia.
  destruct (Z.eqb_spec (os_sender s) sd) as [E|N]; cbn [negb].
  - destruct (obs_tail_ok w s g sd p I M) as (s' & out & gs & g' & A & B & C & D & F & H). rewrite A. cbn [bind app].
    exists s', out, gs, g'. split; [reflexivity|]. split; [exact B|]. split; [exact C|]. split; [congruence|]. split; [exact H|].
    intros FR. rewrite E in *. assert (FA : from sd (concat gs ++ g')).
    { eapply subseq_forall; [exact H|]. apply Forall_app. split; [exact FR|repeat constructor]. }
    apply Forall_app in FA. destruct FA as [F1 F2]. split; [|exact F2]. eapply concat_sent; [exact F1| |exact B]. exact F.
  - destruct (flush_inv w s g I) as (sf & FE & FS & FI & FM). rewrite FE. cbn [os_hdr os_buf].
    assert (FI' : Inv w (mkost sd (os_hdr sf) (os_buf sf)) []).
    { destruct FI as [J1 J2 J3 J4 J5]. constructor; assumption. }
    destruct (obs_tail_ok w _ [] sd p FI' M) as (s' & out & gs & g' & A & B & C & D & F & H). cbn [os_sender os_hdr os_buf] in A, D, F.
    cbn [os_hdr os_buf]. rewrite A. cbn [bind].
    exists s', ([mkepoch (os_sender s) (os_hdr s) (os_buf s)] ++ out), (g :: gs), g'. split; [reflexivity|]. split; [constructor; assumption|]. split; [exact C|]. split; [exact D|]. split.
    + cbn [concat]. rewrite <- app_assoc. apply subseq_app_l. exact H.
    + intros FR. assert (FA : from sd (concat gs ++ g')) by (eapply subseq_forall; [exact H|]; repeat constructor).
      apply Forall_app in FA. destruct FA as [F1 F2]. split; [|exact F2]. constructor; [exact FR|]. eapply concat_sent; eassumption.
Qed.

Lemma run_ok w es : forall s g last, Inv w s g -> Forall (msg_ok w) (obs_messages es) ->
  exists s' out gs g', run s es = Ok (s', out) /\ Forall2 made_of gs out /\ Inv w s' g' /\ subseq (concat gs ++ g') (g ++ obs_messages es) /\
    (from (os_sender s) g -> (forall l, last = Some l -> l = os_sender s) -> (last = None -> g = []) -> one_source last es -> Forall2 sent_by gs out).
Proof.
  induction es as [|e es IH]; intros s g last I F.
  - exists s, [], [], g. split; [reflexivity|]. split; [constructor|]. split; [exact I|]. split; [cbn; rewrite app_nil_r; apply subseq_refl|]. intros; constructor.
  - destruct e as [sd p|sd]; cbn [run step obs_messages flat_map app] in *.
    + inversion F as [|? ? M F']; subst. destruct (obs_cb_ok w s g sd p I M) as (s1 & o1 & gs1 & g1 & A & B & C & D & H & FR). rewrite A. cbn [bind].
      destruct (IH s1 g1 (Some sd) C F') as (s2 & o2 & gs2 & g2 & A2 & B2 & C2 & H2 & FR2). rewrite A2. cbn [bind].
      exists s2, (o1 ++ o2), (gs1 ++ gs2), g2. split; [reflexivity|]. split; [apply Forall2_app; assumption|]. split; [exact C2|]. split.
      * rewrite concat_app, <- app_assoc. eapply subseq_trans; [apply subseq_app_l; exact H2|]. rewrite app_assoc.
        change ((sd, p) :: flat_map (fun e => match e with EObs s p => [(s, p)] | EOther _ => [] end) es) with ([(sd, p)] ++ obs_messages es).
        rewrite app_assoc. apply subseq_app_r. exact H.
      * intros F1 F2 F3 OS. cbn [one_source] in OS. destruct (FR F1) as [X1 X2]. apply Forall2_app; [exact X1|]. apply FR2; [rewrite D; exact X2|congruence|discriminate|exact OS].
    + cbn [bind]. assert (I' : Inv w (mkost sd (os_hdr s) (os_buf s)) g) by (destruct I as [J1 J2 J3 J4 J5]; constructor; assumption).
      destruct (IH _ g last I' F) as (s2 & o2 & gs2 & g2 & A2 & B2 & C2 & H2 & FR2). rewrite A2. cbn [bind app].
      exists s2, o2, gs2, g2. split; [reflexivity|]. split; [exact B2|]. split; [exact C2|]. split; [exact H2|].
      intros F1 F2 F3 [OS1 OS2]. apply FR2; cbn [os_sender].
      * destruct last as [l|]; [rewrite <- (OS1 l eq_refl), (F2 l eq_refl); exact F1|]. rewrite (F3 eq_refl). constructor.
      * exact OS1.
      * exact F3.
      * exact OS2.
Qed.

(** ** a complete sequence is delivered *)
Lemma copy_all p buf : 11 <= len p <= 255 -> len buf + 14 <= 210 ->
  copy_loop p 0 (Z.to_nat (((len p - HDR_LEN) / OBS_LEN) mod 256)) buf = Some (buf ++ wanted_obs p).
Proof.
  intros L B. unfold HDR_LEN, OBS_LEN. replace (((len p - 11) / 17) mod 256) with ((len p - 11) / 17) by lia.
  pose proof (copy_loop_spec p (Z.to_nat ((len p - 11) / 17)) 0 buf ltac:(lia)) as C. exact C.
Qed.
Lemma accept_eq s p : payload_ok p -> len (os_buf s) + 14 <= 210 ->
  accept s p = Ok (let s' := mkost (os_sender s) (parse_hdr p) (os_buf s ++ wanted_obs p) in if position p =? total p then flush s' else (s', [])).
Proof.
  intros P B. destruct (seq_fields p P) as (S1 & S2 & _ & _). unfold accept. cbv zeta. rewrite copy_all by (try exact B; apply P). rewrite S1, S2. reflexivity.
Qed.
Lemma time_valid a b : 0 <= oh_tow a < 604800000 -> 0 <= oh_tow b < 604800000 -> abs_ms a = abs_ms b -> oh_wn a = oh_wn b.
Proof. unfold abs_ms. lia. Qed.
Lemma continue_epoch sd t n : n <= 15 -> forall qs k buf s, 0 <= k -> k + len qs = n -> qs <> [] ->
  (forall i p, nth_error qs i = Some p -> payload_ok p /\ msg_time p = t /\ total p = n /\ position p = k + Z.of_nat i + 1) ->
  os_sender s = sd -> os_buf s = buf -> len buf <= 14 * k ->
  (buf <> [] -> abs_ms (os_hdr s) = t /\ 0 <= oh_tow (os_hdr s) < 604800000 /\ seq_size (oh_n (os_hdr s)) = n /\ seq_counter (oh_n (os_hdr s)) = k) ->
  exists h, run s (map (EObs sd) qs) = Ok (mkost sd h [], [mkepoch sd h (buf ++ flat_map wanted_obs qs)]) /\ abs_ms h = t /\ 0 <= oh_tow h < 604800000.
Proof.
  intros N. induction qs as [|p qs IH]; intros k buf s K LN NE Q SD B LB H; [contradiction|].
  destruct (Q 0%nat p eq_refl) as (P & T & TO & PO). cbn [map run step]. pose proof P as (_ & LP & _).
  rewrite len_cons in LN. pose proof (len_nonneg qs) as LQ.
  destruct (seq_fields p P) as (S1 & S2 & _ & _).
  assert (OC : obs_cb s sd p = accept s p).
  { unfold obs_cb. unfold HDR_LEN. replace (len p <? 11) with false by lia. rewrite SD, Z.eqb_refl. cbn [negb]. rewrite B.
    destruct (Z.ltb_spec 0 (len buf)) as [LT|GE].
    - assert (NB : buf <> []) by (intros ->; cbn in LT; lia). destruct (H NB) as (H1 & H2 & H3 & H4).
      destruct (hdr_range p P) as (RP & _). assert (AM : abs_ms (parse_hdr p) = abs_ms (os_hdr s)) by (rewrite H1; exact T).
      destruct (diff_sign (parse_hdr p) (os_hdr s) RP H2) as (d & -> & -> & ->); [rewrite (time_valid _ _ RP H2 AM); lia|].
      rewrite AM, Z.ltb_irrefl, S1, S2, H3, H4. replace (negb (total p =? n) || (position p <=? k)) with false by lia.
      destruct (accept s p) as [[s1 o1]| | |]; reflexivity.
    - destruct (accept s p) as [[s1 o1]| | |]; reflexivity. }
  rewrite OC, accept_eq by (try exact P; rewrite B; lia). rewrite SD, B. cbv zeta. cbn [bind].
  destruct qs as [|q qs].
  - replace (position p =? total p) with true by (cbn in LN; lia). cbn [flush os_sender os_hdr os_buf map run bind app flat_map]. rewrite app_nil_r.
    exists (parse_hdr p). split; [reflexivity|]. split; [exact T|]. destruct (hdr_range p P) as (RP & _). exact RP.
  - replace (position p =? total p) with false by (rewrite len_cons in LN; pose proof (len_nonneg qs); lia). cbn [bind].
    destruct (IH (k + 1) (buf ++ wanted_obs p) (mkost sd (parse_hdr p) (buf ++ wanted_obs p))) as (h & R & A).
    + lia.
    + lia.
    + discriminate.
    + intros i r Hr. destruct (Q (Datatypes.S i) r Hr) as (Q1 & Q2 & Q3 & Q4). split; [exact Q1|]. split; [exact Q2|]. split; [exact Q3|]. lia.
    + reflexivity.
    + reflexivity.
    + rewrite len_app. pose proof (wanted_len p LP). lia.
    + intros _. cbn [os_hdr]. split; [exact T|]. destruct (hdr_range p P) as (RP & _). split; [exact RP|]. split; lia.
    + exists h. rewrite R. cbn [bind app]. split; [|exact A]. cbn [flat_map]. rewrite <- !app_assoc. reflexivity.
Qed.

Lemma complete_delivered w s g sd t ps : Inv w s g -> complete_epoch t ps -> ready_for s sd t ->
  Forall (fun p => w <= oh_wn (parse_hdr p) <= w + 3550) ps -> len ps <= 15 ->
  exists h pre, run s (map (EObs sd) ps) = Ok (mkost sd h [], pre ++ [mkepoch sd h (flat_map wanted_obs ps)]) /\ (abs_ms h = t /\ 0 <= oh_tow h < 604800000) /\
    (pre = [] \/ pre = [mkepoch (os_sender s) (os_hdr s) (os_buf s)]).
Proof.
  intros I [NE C] RD FW L15.
  assert (EMPTY : forall s, os_sender s = sd -> os_buf s = [] -> exists h, run s (map (EObs sd) ps) = Ok (mkost sd h [], [mkepoch sd h (flat_map wanted_obs ps)]) /\ abs_ms h = t /\ 0 <= oh_tow h < 604800000).
  { intros s1 E1 E2. destruct (continue_epoch sd t (len ps) L15 ps 0 [] s1) as (h & R & A); try assumption; try lia.
    - cbn; lia.
    - intros X. contradiction.
    - exists h. split; [exact R|exact A]. }
  destruct ps as [|p ps]; [contradiction|]. destruct (C 0%nat p eq_refl) as (P & T & TO & PO).
  pose proof P as (_ & LP & _).
  destruct (Z.eq_dec (os_sender s) sd) as [E|N].
  - destruct (list_eq_dec_nil (os_buf s)) as [B|NB].
    + destruct (EMPTY s E B) as (h & R & A). exists h, []. split; [exact R|]. split; [exact A|left; reflexivity].
    + destruct RD as [X|[X|X]]; [contradiction|contradiction|].
      assert (NG : g <> []) by (intros ->; apply NB; apply (inv_buf _ _ _ I)).
      destruct (list_last g NG) as (g0 & l & G). destruct (inv_last _ _ _ I g0 l G) as (EH & _).
      assert (OKl : msg_ok w l) by (pose proof (inv_ok _ _ _ I) as F; rewrite Forall_forall in F; apply F; rewrite G; apply in_or_app; right; left; reflexivity).
      destruct OKl as (Pl & _ & Wl). destruct (hdr_range p P) as (RP & _). destruct (hdr_range (snd l) Pl) as (RL & _).
      inversion FW as [|? ? W1 FW']; subst.
      set (sf := mkost (os_sender s) (os_hdr s) []).
      assert (STEP : obs_cb s (os_sender s) p = bind (obs_cb sf (os_sender s) p) (fun '(s1, o) => Ok (s1, mkepoch (os_sender s) (os_hdr s) (os_buf s) :: o))).
      { unfold obs_cb. unfold HDR_LEN. replace (len p <? 11) with false by lia. cbn [sf os_sender os_hdr os_buf]. rewrite Z.eqb_refl. cbn [negb].
        assert (LB : 0 < len (os_buf s)) by (pose proof (len_nonneg (os_buf s)); destruct (Z.eq_dec (len (os_buf s)) 0) as [Z0|]; [apply len_zero_nil in Z0; contradiction|lia]).
        replace (0 <? len (os_buf s)) with true by lia. change (0 <? len []) with false. cbv iota.
        destruct (diff_sign (parse_hdr p) (os_hdr s)) as (d & -> & -> & ->).
        - exact RP.
        - rewrite EH. exact RL.
        - rewrite EH. lia.
        - change (abs_ms (parse_hdr p)) with (msg_time p). unfold abs_ms. replace (msg_time p <? 604800000 * oh_wn (os_hdr s) + oh_tow (os_hdr s)) with false by lia.
          replace (604800000 * oh_wn (os_hdr s) + oh_tow (os_hdr s) <? msg_time p) with true by lia. unfold flush. fold sf.
          destruct (accept sf p) as [[s1 o1]| | |]; reflexivity. }
      destruct (EMPTY sf eq_refl eq_refl) as (h & R & A). exists h, [mkepoch (os_sender s) (os_hdr s) (os_buf s)].
      split; [|split; [exact A|right; reflexivity]]. cbn [map run step] in R |- *. rewrite STEP.
      destruct (obs_cb sf (os_sender s) p) as [[s1 o1]| | |]; cbn [bind] in R |- *; try discriminate R.
      destruct (run s1 (map (EObs (os_sender s)) ps)) as [[s2 o2]| | |]; cbn [bind] in R |- *; try discriminate R.
      injection R as R1 R2. rewrite R1. cbn [app]. rewrite R2. reflexivity.
  - destruct (EMPTY (mkost sd (os_hdr s) []) eq_refl eq_refl) as (h & R & A). exists h, [mkepoch (os_sender s) (os_hdr s) (os_buf s)].
    split; [|split; [exact A|right; reflexivity]].
    assert (STEP : obs_cb s sd p = bind (obs_cb (mkost sd (os_hdr s) []) sd p) (fun '(s1, o) => Ok (s1, mkepoch (os_sender s) (os_hdr s) (os_buf s) :: o))).
    { unfold obs_cb. unfold HDR_LEN. replace (len p <? 11) with false by lia. cbn [os_sender os_hdr os_buf]. rewrite Z.eqb_refl.
      replace (os_sender s =? sd) with false by lia. cbn [negb flush os_sender os_hdr os_buf]. change (0 <? len []) with false. cbv iota.
      destruct (accept (mkost sd (os_hdr s) []) p) as [[s1 o1]| | |]; reflexivity. }
    cbn [map run step] in R |- *. rewrite STEP.
    destruct (obs_cb (mkost sd (os_hdr s) []) sd p) as [[s1 o1]| | |]; cbn [bind] in R |- *; try discriminate R.
    destruct (run s1 (map (EObs sd) ps)) as [[s2 o2]| | |]; cbn [bind] in R |- *; try discriminate R.
    injection R as R1 R2. rewrite R1. cbn [app]. rewrite R2. reflexivity.
Qed.

(** ** the buffer bound, for every run *)
Lemma copy_le p n : forall i buf buf', len buf <= 210 -> copy_loop p i n buf = Some buf' -> len buf' <= 210.
Proof.
  induction n as [|n IH]; intros i buf buf' L H; cbn [copy_loop] in H; [injection H as <-; exact L|]. cbv zeta in H.
  destruct (_ || _) in H; [eapply IH; eassumption|]. unfold MAX_OBS_PER_EPOCH in H. destruct (Z.leb_spec 210 (len buf)) as [|LT]; [discriminate|].
  assert (LB : len (buf ++ [parse_obs p i]) = len buf + 1) by (rewrite len_app, len_cons, len_nil; lia).
  destruct (len (buf ++ [parse_obs p i]) =? 210); [injection H as <-; lia|]. eapply IH; [|exact H]. lia.
Qed.
Definition small (r : ost * list epoch) : Prop := len (os_buf (fst r)) <= 210 /\ Forall (fun e => len (e_obs e) <= 210) (snd r).
Lemma flush_small s : len (os_buf s) <= 210 -> small (flush s).
Proof. intros L. split; [cbn; lia|]. repeat constructor. exact L. Qed.
Lemma accept_small s p r : len (os_buf s) <= 210 -> accept s p = Ok r -> small r.
Proof.
  intros L H. unfold accept in H. cbv zeta in H. destruct (copy_loop p 0 _ (os_buf s)) as [buf|] eqn:C; [|discriminate]. apply copy_le in C; [|exact L].
  injection H as <-. destruct (_ =? _); [apply flush_small; exact C|]. split; [exact C|constructor].
Qed.
Lemma small_prefix r o : small r -> Forall (fun e => len (e_obs e) <= 210) o -> small (fst r, o ++ snd r).
Proof. intros [A B] F. split; [exact A|]. apply Forall_app. split; assumption. Qed.
Lemma step_small s e r : len (os_buf s) <= 210 -> step s e = Ok r -> small r.
Proof.
  intros L H. destruct e as [sd p|sd]; cbn [step] in H; [|injection H as <-; split; [exact L|constructor]].
  unfold obs_cb in H. destruct (len p <? HDR_LEN); [discriminate|].
  assert (X : exists s1 o1, (if negb (os_sender s =? sd) then let '(s, o) := flush s in (mkost sd (os_hdr s) (os_buf s), o) else (s, [])) = (s1, o1) /\ small (s1, o1)).
  { destruct (negb (os_sender s =? sd)); [|exists s, []; split; [reflexivity|split; [exact L|constructor]]].
    destruct (flush_small s L) as [A B]. destruct (flush s) as [s1 o1]. exists (mkost sd (os_hdr s1) (os_buf s1)), o1. split; [reflexivity|]. split; assumption. }
  destruct X as (s1 & o1 & X & [L1 F1]). rewrite X in H. clear X. cbn [fst snd] in L1, F1.
  match type of H with bind ?x _ = _ => destruct x as [[s2 o2]| | |] eqn:E; cbn [bind] in H; try discriminate H end. injection H as <-.
  assert (S : small (s2, o2)).
  { destruct (0 <? len (os_buf s1)); [|eapply accept_small; eassumption].
    destruct (sbp_diff_time (parse_hdr p) (os_hdr s1)) as [dt|]; [|discriminate].
    destruct (dltb dt (dofZ 0)); [injection E as <- <-; split; [exact L1|constructor]|].
    destruct (dgtb dt (dofZ 0)).
    - destruct (flush_small s1 L1) as [A B]. destruct (flush s1) as [s3 o3]. cbn [fst snd] in A, B. destruct (accept s3 p) as [[s4 o4]| | |] eqn:AC; cbn [bind] in E; try discriminate E.
      injection E as <- <-. apply (accept_small s3 p _ A) in AC. apply (small_prefix _ o3 AC B).
    - destruct (negb (seq_size _ =? _) || _).
      + injection E as <- <-. exact (flush_small s1 L1).
      + eapply accept_small; eassumption. }
  apply (small_prefix _ o1 S F1).
Qed.
Lemma run_small es : forall s r, len (os_buf s) <= 210 -> run s es = Ok r -> small r.
Proof.
  induction es as [|e es IH]; intros s r L H; cbn [run] in H; [injection H as <-; split; [exact L|constructor]|].
  destruct (step s e) as [[s1 o1]| | |] eqn:S; cbn [bind] in H; try discriminate H. apply (step_small s e _ L) in S. destruct S as [A B]. cbn [fst snd] in A, B.
  destruct (run s1 es) as [[s2 o2]| | |] eqn:R; cbn [bind] in H; try discriminate H. injection H as <-. apply (small_prefix _ o1 (IH _ _ A R) B).
Qed.
