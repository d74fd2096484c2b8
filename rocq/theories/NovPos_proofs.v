(** Proofs about the NovAtel to SBP conversion of time, position, velocity, attitude and ephemerides *)
From Coq Require Import Reals Lra.
From Flocq Require Import Core IEEE754.Binary IEEE754.Bits.
From Verif Require Import Base Double_model Double_proofs UbxObs_proofs Esf_model Esf_proofs Ixcom_model Ixcom_float_proofs Signals_model Novatel_model SbpEph_model SbpEph_spec SbpEph_proofs Near_proofs Exact_proofs Pi_proofs NovSbp_model NovSbp_spec.
Open Scope Z_scope.

(** ** histories *)
Lemma last_time_app a b : last_time (a ++ b) = match last_time b with Some t => Some t | None => last_time a end.
Proof.
  induction a as [|m a IH]; [cbn [app last_time]; destruct (last_time b); reflexivity|]. cbn [app last_time]. rewrite IH.
  destruct (last_time b); [reflexivity|]. reflexivity.
Qed.
Lemma last_time_none l : forallb (fun m => negb (is_time m)) l = true -> last_time l = None.
Proof. induction l as [|m l IH]; [reflexivity|]. cbn [forallb last_time]. intros H. apply andb_prop in H. destruct H as [A B]. rewrite (IH B). destruct m; try reflexivity; discriminate. Qed.
Section Hist.
Variables (elt : dbl -> Z) (sid_valid : Z -> code -> bool) (geoid : dbl -> dbl -> dbl) (cosf sinf : dbl -> dbl).
Notation step := (nov_step elt sid_valid geoid cosf sinf).
Notation run := (nov_run elt sid_valid geoid cosf sinf).
Definition hdr_time (h : nhdr) : Z * Z * Z * Z := (nh_week h, u32 (nh_ms h), 0, 1).
Lemma send_time_spec st h st1 ts : send_time st h = (st1, ts) ->
  ns_time st1 = hdr_time h /\ ns_pf_tow st1 = ns_pf_tow st /\ ns_pf_flags st1 = ns_pf_flags st /\
  (ts = [] /\ ns_time st = hdr_time h \/ ts = [OTime (nh_week h) (u32 (nh_ms h)) 0 1] /\ ns_time st <> hdr_time h).
Proof.
  unfold send_time, hdr_time. intros H. pose proof (f_equal fst H) as A. pose proof (f_equal snd H) as B. cbn [fst snd] in A, B. subst st1.
  cbn [ns_time ns_pf_tow ns_pf_flags]. repeat split. destruct (ns_time st) as [[[w tw] ns] fl].
  destruct (Z.eqb_spec w (nh_week h)), (Z.eqb_spec tw (u32 (nh_ms h))), (Z.eqb_spec ns 0), (Z.eqb_spec fl 1); cbn [andb] in B; subst ts;
    try (right; split; [reflexivity|congruence]). left. split; [reflexivity|congruence].
Qed.
Lemma obs_loop_no_time e s t tot : forall k c l out, obs_loop e s t tot c k l = Some out -> forallb (fun m => negb (is_time m)) out = true.
Proof.
  induction k as [|k IH]; intros c l out; cbn [obs_loop]; [intros [= <-]; reflexivity|].
  destruct (pack_all e s (take 14 l)); [|discriminate]. destruct (obs_loop e s t tot (c + 1) k (drop 14 l)) eqn:E; [|discriminate]. destruct t as [[wn tow] ns].
  intros Q. injection Q as Q. subst out. cbn [forallb is_time negb andb]. exact (IH _ _ _ E).
Qed.
Definition quiet (st : nstate) (o : option (nstate * list nout)) : Prop :=
  forall st1 out, o = Some (st1, out) -> ns_time st1 = ns_time st /\ ns_pf_tow st1 = ns_pf_tow st /\ ns_pf_flags st1 = ns_pf_flags st /\ forallb (fun m => negb (is_time m)) out = true.
Lemma range_no_time h l out : write_range_cmp elt sid_valid h l = Some out -> forallb (fun m => negb (is_time m)) out = true.
Proof. unfold write_range_cmp. destruct (len l =? 0); [discriminate|]. destruct (obs_time h); [|discriminate]. apply obs_loop_no_time. Qed.
Lemma map3_shape f x y z k l : map3 f x y z k = Some l -> exists a b c, l = k a b c.
Proof. unfold map3. destruct (f x); [|discriminate]. destruct (f y); [|discriminate]. destruct (f z); [|discriminate]. intros [= <-]. eauto. Qed.
Lemma imu_no_time st h f : quiet st (write_raw_imu st h f).
Proof.
  intros st1 out. unfold write_raw_imu. destruct (negb (Z.land (fld f 0) 3 =? 0)); [discriminate|].
  destruct (angular_rate st h f) as [a|] eqn:A; [|discriminate]. destruct (imu_raw st h f) as [r|] eqn:B; [|discriminate].
  intros Q. assert (Q' := f_equal (fun o => match o with Some p => p | None => (st, []) end) Q). cbv beta iota in Q'. clear Q.
  pose proof (f_equal fst Q') as Q1. pose proof (f_equal snd Q') as Q2. cbn [fst snd] in Q1, Q2. subst st1 out. cbn [ns_time ns_pf_tow ns_pf_flags]. repeat split.
  assert (HA : forallb (fun m => negb (is_time m)) a = true).
  { unfold angular_rate in A. destruct (imu_rate st h (fld f 1)); [|injection A as <-; reflexivity]. destruct (gyro_scale (fld f 1) _); [|injection A as <-; reflexivity].
    apply map3_shape in A. destruct A as (x & y & z & ->). reflexivity. }
  assert (HB : forallb (fun m => negb (is_time m)) r = true).
  { unfold imu_raw in B. destruct (imu_rate st h (fld f 1)); [|injection B as <-; reflexivity]. destruct (gyro_scale (fld f 1) _); [|injection B as <-; reflexivity].
    destruct (accel_scale (fld f 1) _); [|injection B as <-; reflexivity].
    destruct (map3 _ (fld f 7) _ _ _) as [m|] eqn:M; [|discriminate]. apply map3_shape in M. destruct M as (x & y & z & ->).
    apply map3_shape in B. destruct B as (x' & y' & z' & ->). reflexivity. }
  rewrite !forallb_app, HA, HB. destruct (imu_aux_due st h); reflexivity.
Qed.
Lemma same_quiet st (o : option (list nout)) : (forall out, o = Some out -> forallb (fun m => negb (is_time m)) out = true) ->
  quiet st (match o with Some l => Some (st, l) | None => None end).
Proof. intros H st1 out. destruct o; [|discriminate]. intros [= <- <-]. repeat split. apply H. reflexivity. Qed.
Lemma step_quiet st h b : (nh_id h <> 42 /\ nh_id h <> 99) \/ (exists l, b = NRange l) -> quiet st (step st (h, b)).
Proof.
  intros N. unfold nov_step. destruct b as [f|l].
  - destruct N as [[N1 N2]|(l & E)]; [|discriminate].
    destruct (nh_id h =? 7); [apply same_quiet; intros out|].
    { unfold write_gps_ephem. destruct (cu32 (fd f 7)); [|discriminate]. destruct (cu32 (fd f 24)); [|discriminate]. destruct ((255 <? fld f 0) || (65535 <? fld f 5)); [discriminate|].
      intros [= <-]. reflexivity. }
    destruct (Z.eqb_spec (nh_id h) 42); [contradiction|]. destruct (Z.eqb_spec (nh_id h) 99); [contradiction|].
    destruct (nh_id h =? 263); [apply same_quiet; intros out|].
    { unfold write_ins_att. destruct (sat32 _); [|discriminate]. destruct (sat32 _); [|discriminate]. destruct (sat32 _); [|discriminate]. intros [= <-]. reflexivity. }
    destruct (nh_id h =? 1462); [apply imu_no_time|]. intros st1 out [= <- <-]. repeat split.
  - apply same_quiet. intros out E. exact (range_no_time _ _ _ E).
Qed.
(** a BESTPOS or BESTVEL step *)
Definition fix_msg (h : nhdr) (b : nbody) : Prop := (nh_id h = 42 \/ nh_id h = 99) /\ exists f, b = NFields f.
Lemma step_fix st h b st1 out : fix_msg h b -> step st (h, b) = Some (st1, out) ->
  ns_time st1 = hdr_time h /\ exists m, is_time m = false /\ (out = [m] /\ ns_time st = hdr_time h \/ out = [OTime (nh_week h) (u32 (nh_ms h)) 0 1; m] /\ ns_time st <> hdr_time h) /\
  (exists f, b = NFields f /\ (nh_id h = 42 /\ (exists lat lon hh ha va, m = OPos (u32 (nh_ms h)) lat lon hh ha va (fld f 17) (position_flags (fld f 1))) /\
      ns_pf_tow st1 = u32 (nh_ms h) /\ ns_pf_flags st1 = position_flags (fld f 1)
   \/ nh_id h = 99 /\ (exists n e d, m = OVel (u32 (nh_ms h)) n e d (if u32 (nh_ms h) =? ns_pf_tow st then ns_pf_flags st else 0)) /\
      ns_pf_tow st1 = ns_pf_tow st /\ ns_pf_flags st1 = ns_pf_flags st)).
Proof.
  intros [I [f ->]]. unfold nov_step. destruct I as [I|I]; rewrite I; cbn [Z.eqb Pos.eqb].
  - unfold write_best_pos. destruct (send_time st h) as [s1 ts] eqn:E. destruct (send_time_spec _ _ _ _ E) as (T & _ & _ & S).
    destruct (float_to_u16 (fmul _ (ff32 f 9))) as [v|]; [|discriminate]. destruct (float_to_u16 (fmaxf _ _)) as [hz|]; [|discriminate].
    intros Q. assert (Q' := f_equal (fun o => match o with Some p => p | None => (st, []) end) Q). cbv beta iota zeta in Q'. clear Q.
    pose proof (f_equal fst Q') as Q1. pose proof (f_equal snd Q') as Q2. cbn [fst snd] in Q1, Q2. subst st1 out. cbn [ns_time ns_pf_tow ns_pf_flags].
    split; [exact T|]. eexists. split; [|split].
    2:{ destruct S as [[-> S]|[-> S]]; [left|right]; (split; [reflexivity|exact S]). }
    { reflexivity. }
    exists f. split; [reflexivity|]. left. split; [reflexivity|]. split; [|split; reflexivity]. repeat eexists.
  - unfold write_best_vel. destruct (send_time st h) as [s1 ts] eqn:E. destruct (send_time_spec _ _ _ _ E) as (T & P1 & P2 & S).
    cbv zeta. destruct (sat32 _) as [n|]; [|discriminate]. destruct (sat32 _) as [e|]; [|discriminate]. destruct (sat32 _) as [v|]; [|discriminate].
    destruct (v =? - 2 ^ 31); [discriminate|].
    intros Q. assert (Q' := f_equal (fun o => match o with Some p => p | None => (st, []) end) Q). cbv beta iota zeta in Q'. clear Q.
    pose proof (f_equal fst Q') as Q1. pose proof (f_equal snd Q') as Q2. cbn [fst snd] in Q1, Q2. subst st1 out.
    split; [exact T|]. rewrite P1, P2. eexists. split; [|split].
    2:{ destruct S as [[-> S]|[-> S]]; [left|right]; (split; [reflexivity|exact S]). }
    { reflexivity. }
    exists f. split; [reflexivity|]. right. split; [reflexivity|]. split; [|split; reflexivity]. repeat eexists.
Qed.
Lemma fix_dec h b : fix_msg h b \/ (nh_id h <> 42 /\ nh_id h <> 99) \/ (exists l, b = NRange l).
Proof. destruct b as [f|l]; [|right; right; eauto]. destruct (Z.eq_dec (nh_id h) 42); [left; split; eauto|]. destruct (Z.eq_dec (nh_id h) 99); [left; split; eauto|]. right. left. split; assumption. Qed.
Lemma run_app a : forall st b, run st (a ++ b) = match run st a with Some (st1, o1) => match run st1 b with Some (st2, o2) => Some (st2, o1 ++ o2) | None => None end | None => None end.
Proof.
  induction a as [|c a IH]; intros st b; [cbn [app nov_run]; destruct (run st b) as [[? ?]|]; reflexivity|].
  cbn [app nov_run]. destruct (step st c) as [[st1 o1]|]; [|reflexivity]. rewrite IH. destruct (run st1 a) as [[st2 o2]|]; [|reflexivity].
  destruct (run st2 b) as [[st3 o3]|]; [|reflexivity]. rewrite app_assoc. reflexivity.
Qed.
Definition time_inv (t0 : Z * Z * Z * Z) (st : nstate) (out : list nout) : Prop := ns_time st = match last_time out with Some t => t | None => t0 end.
Lemma run_time cs : forall st st1 out, run st cs = Some (st1, out) -> time_inv (ns_time st) st1 out.
Proof.
  induction cs as [|[h b] cs IH]; intros st st1 out; cbn [nov_run]; [intros [= <- <-]; reflexivity|].
  destruct (step st (h, b)) as [[s1 o1]|] eqn:E; [|discriminate]. destruct (run s1 cs) as [[s2 o2]|] eqn:R; [|discriminate].
  intros Q. assert (Q' := f_equal (fun o => match o with Some p => p | None => (st, []) end) Q). cbv beta iota in Q'. clear Q.
  pose proof (f_equal fst Q') as Q1. pose proof (f_equal snd Q') as Q2. cbn [fst snd] in Q1, Q2. subst st1 out.
  specialize (IH _ _ _ R). unfold time_inv in *. rewrite last_time_app. rewrite IH. destruct (last_time o2); [reflexivity|].
  destruct (fix_dec h b) as [F|F].
  - destruct (step_fix _ _ _ _ _ F E) as (T & m & NT & S & _). rewrite T. destruct S as [[-> S]|[-> S]]; cbn [last_time]; destruct m; try discriminate; auto.
  - destruct (step_quiet st h b F _ _ E) as (T & _ & _ & N). rewrite (last_time_none _ N). exact T.
Qed.
(** no two consecutive equal times *)
Fixpoint times (out : list nout) : list (Z * Z * Z * Z) := match out with [] => [] | OTime w t n f :: out => (w, t, n, f) :: times out | _ :: out => times out end.
Lemma times_app a b : times (a ++ b) = times a ++ times b.
Proof. induction a as [|m a IH]; [reflexivity|]. cbn [app times]. destruct m; rewrite IH; reflexivity. Qed.
Lemma times_none l : forallb (fun m => negb (is_time m)) l = true -> times l = [].
Proof. induction l as [|m l IH]; [reflexivity|]. cbn [forallb times]. intros H. apply andb_prop in H. destruct H as [A B]. destruct m; try discriminate; exact (IH B). Qed.
Fixpoint changing (t : Z * Z * Z * Z) (l : list (Z * Z * Z * Z)) : Prop := match l with [] => True | u :: l => t <> u /\ changing u l end.
Lemma run_changing cs : forall st st1 out, run st cs = Some (st1, out) -> changing (ns_time st) (times out).
Proof.
  induction cs as [|[h b] cs IH]; intros st st1 out; cbn [nov_run]; [intros [= <- <-]; exact I|].
  destruct (step st (h, b)) as [[s1 o1]|] eqn:E; [|discriminate]. destruct (run s1 cs) as [[s2 o2]|] eqn:R; [|discriminate].
  intros Q. assert (Q' := f_equal (fun o => match o with Some p => p | None => (st, []) end) Q). cbv beta iota in Q'. clear Q.
  pose proof (f_equal snd Q') as Q2. cbn [snd] in Q2. subst out. specialize (IH _ _ _ R). rewrite times_app.
  destruct (fix_dec h b) as [F|F].
  - destruct (step_fix _ _ _ _ _ F E) as (T & m & NT & S & _). rewrite T in IH. destruct S as [[-> S]|[-> S]].
    + rewrite S. cbn [times]. destruct m; try discriminate; exact IH.
    + cbn [times]. destruct m; try discriminate; (split; [exact S|exact IH]).
  - destruct (step_quiet st h b F _ _ E) as (T & _ & _ & N). rewrite (times_none _ N), <- T. exact IH.
Qed.
Lemma changing_split t a x b y c : changing t (a ++ x :: b :: c) -> y = b -> x <> y.
Proof. intros H ->. revert t H. induction a as [|u a IH]; intros t H; [apply H|]. apply (IH u). apply H. Qed.
Lemma run_pf cs : (forall h b, In (h, b) cs -> nh_id h <> 42) -> forall st st1 out, run st cs = Some (st1, out) -> ns_pf_tow st1 = ns_pf_tow st /\ ns_pf_flags st1 = ns_pf_flags st.
Proof.
  induction cs as [|[h b] cs IH]; intros H st st1 out; cbn [nov_run]; [intros [= <- <-]; split; reflexivity|].
  destruct (step st (h, b)) as [[s1 o1]|] eqn:E; [|discriminate]. destruct (run s1 cs) as [[s2 o2]|] eqn:R; [|discriminate].
  intros Q. assert (Q' := f_equal (fun o => match o with Some p => p | None => (st, []) end) Q). cbv beta iota in Q'. clear Q.
  pose proof (f_equal fst Q') as Q1. cbn [fst] in Q1. subst st1. assert (H' : forall h b, In (h, b) cs -> nh_id h <> 42) by (intros h' b' I'; apply (H h' b'); right; exact I').
  specialize (IH H' _ _ _ R). destruct IH as [-> ->]. specialize (H h b (or_introl eq_refl)).
  destruct (fix_dec h b) as [F|F].
  - destruct (step_fix _ _ _ _ _ F E) as (_ & m & _ & _ & f & _ & [[I _]|(_ & _ & A & B)]); [contradiction|]. split; assumption.
  - destruct (step_quiet st h b F _ _ E) as (_ & A & B & _). split; assumption.
Qed.
End Hist.
