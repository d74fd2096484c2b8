(** Proofs for C87. *)
From Verif Require StaConv_model.
From Verif Require Import Base Time_model Double_model RtcmMsm_model RtcmStation_model Signals_model Sbp2Rtcm_model Sbp2Msm_model MsmVal_model Tunnel_model EphOut_model Options_model ObsBuffer_model Rx_model Relay_model Apart_spec.
Local Open Scope Z_scope.

Lemma observations_app {obs O} (a b : list (out obs O)) : observations (a ++ b) = observations a ++ observations b. Proof. apply flat_map_app. Qed.
Lemma observations_other {obs O} (l : list O) : observations (obs := obs) (map (fun x => OOther x) l) = []. Proof. induction l; [reflexivity|exact IHl]. Qed.

Section Sim.
Context {A1 O1 A2 O2 : Type}.
Notation st1 := (rstate pobs (list Z * A1)).
Notation st2 := (rstate pobs (list Z * A2)).
(** equal except for what the other messages keep *)
Definition same (s1 : st1) (s2 : st2) : Prop :=
  r_sender s1 = r_sender s2 /\ r_last_gps s1 = r_last_gps s2 /\ r_last_glo s1 = r_last_glo s2 /\ r_last_msm s1 = r_last_msm s2 /\
  r_obs_wn s1 = r_obs_wn s2 /\ r_obs_tow s1 = r_obs_tow s2 /\ r_buf s1 = r_buf s2 /\ fst (r_aux s1) = fst (r_aux s2).
Definition same_t (s1 : st1) (s2 : st2) : Prop := same s1 s2 /\ r_time s1 = r_time s2 /\ r_leap s1 = r_leap s2.
Definition rel (R : st1 -> st2 -> Prop) (x : option (st1 * list (out pobs O1))) (y : option (st2 * list (out pobs O2))) : Prop :=
  match x, y with None, None => True | Some (s1, o1), Some (s2, o2) => R s1 s2 /\ observations o1 = observations o2 | _, _ => False end.
Lemma rel_weaken x y : rel same_t x y -> rel same x y.
Proof. destruct x as [[s1 o1]|], y as [[s2 o2]|]; cbn; intuition. apply H0. Qed.
Lemma send_loop_same total k : forall i rest (s1 : st1) (s2 : st2), same s1 s2 -> observations (send_loop (other_out := O1) s1 total k i rest) = observations (send_loop (other_out := O2) s2 total k i rest).
Proof.
  induction k as [|k IH]; intros i rest s1 s2 S; [reflexivity|]. cbn [send_loop]. unfold observations in *. cbn [flat_map]. f_equal; [|apply IH; exact S]. destruct S as (-> & _ & _ & _ & -> & -> & _). reflexivity.
Qed.
Lemma send_same (R : st1 -> st2 -> Prop) s1 s2 : (R = same \/ R = same_t) -> R s1 s2 -> rel R (send_observations s1) (send_observations s2).
Proof.
  intros RR S. assert (S0 : same s1 s2) by (destruct RR as [-> | ->]; [exact S|apply S]). unfold send_observations. replace (r_buf s2) with (r_buf s1) by apply S0.
  destruct (_ && _); [|exact I]. split; [|apply send_loop_same; exact S0].
  destruct RR as [-> | ->]; unfold same_t, same, set_buf in *; cbn [r_sender r_last_gps r_last_glo r_last_msm r_obs_wn r_obs_tow r_buf r_aux r_time r_leap]; intuition.
Qed.
Ltac same_tac := unfold same_t, same, set_buf, set_sender, set_last in *; cbn [r_sender r_last_gps r_last_glo r_last_msm r_obs_wn r_obs_tow r_buf r_aux r_time r_leap] in *; intuition congruence.
Lemma add_obs_same m t s1 s2 : same_t s1 s2 -> rel same_t (add_obs_to_buffer m t s1) (add_obs_to_buffer m t s2).
Proof.
  intros S. unfold add_obs_to_buffer. replace (r_buf s2) with (r_buf s1) by apply S. replace (r_obs_tow s2) with (r_obs_tow s1) by apply S. replace (r_sender s2) with (r_sender s1) by apply S.
  set (fl := _ && _). assert (F : rel same_t (if fl then send_observations s1 else Some (s1, [])) (if fl then send_observations s2 else Some (s2, []))).
  { destruct fl; [apply send_same; [right; reflexivity|exact S]|split; [exact S|reflexivity]]. }
  clearbody fl. destruct (if fl then send_observations s1 else _) as [[a1 o1]|], (if fl then send_observations s2 else _) as [[a2 o2]|]; cbn [rel] in F; try tauto. destruct F as [F FO].
  cbv zeta. cbn [set_sender set_buf r_buf]. replace (r_buf a2) with (r_buf a1) by apply F. destruct (fill_legacy (r_buf a1) (l_cands m)) as [b full]. destruct full.
  - split; [same_tac|]. rewrite !observations_app, FO. reflexivity.
  - destruct (l_sync m =? 0).
    + match goal with |- rel _ (match send_observations ?x with _ => _ end) (match send_observations ?y with _ => _ end) => assert (G : rel same_t (send_observations x) (send_observations y)) by (apply send_same; [right; reflexivity|same_tac]); destruct (send_observations x) as [[b1 p1]|], (send_observations y) as [[b2 p2]|] end; cbn [rel] in G; try tauto.
      destruct G as [G GO]. split; [exact G|]. rewrite !observations_app, FO, GO. reflexivity.
    + split; [same_tac|exact FO].
Qed.
Lemma base_same t r : observations (base_sanity (obs := pobs) (other_out := O1) t r) = observations (base_sanity (obs := pobs) (other_out := O2) t r).
Proof. unfold base_sanity. destruct (_ && _); reflexivity. Qed.
Lemma add_gps_same m s1 s2 : same_t s1 s2 -> rel same_t (add_gps m s1) (add_gps m s2).
Proof.
  intros S. unfold add_gps, is_msm_active. replace (r_time s2) with (r_time s1) by apply S. replace (r_last_msm s2) with (r_last_msm s1) by apply S. replace (r_last_gps s2) with (r_last_gps s1) by apply S.
  destruct (compute_gps_message_time _ _) as [t|]; [|exact I]. cbv zeta. destruct (negb (gps_time_valid t)); [split; [exact S|apply base_same]|]. destruct (gps_time_valid (r_last_msm s1) && _); [split; [exact S|apply base_same]|].
  destruct (negb _ || _); [|split; [exact S|apply base_same]].
  assert (G : rel same_t (add_obs_to_buffer m t (set_last s1 t (r_last_glo s1) (r_last_msm s1))) (add_obs_to_buffer m t (set_last s2 t (r_last_glo s2) (r_last_msm s1)))) by (apply add_obs_same; same_tac).
  destruct (add_obs_to_buffer m t (set_last s1 _ _ _)) as [[b1 p1]|], (add_obs_to_buffer m t (set_last s2 _ _ _)) as [[b2 p2]|]; cbn [rel] in G; try tauto. destruct G as [G GO]. split; [exact G|]. rewrite !observations_app, GO, base_same. reflexivity.
Qed.
Lemma add_glo_same m s1 s2 : same_t s1 s2 -> rel same_t (add_glo m s1) (add_glo m s2).
Proof.
  intros S. unfold add_glo, is_msm_active, glo_window, leap_of. replace (r_time s2) with (r_time s1) by apply S. replace (r_leap s2) with (r_leap s1) by apply S. replace (r_last_msm s2) with (r_last_msm s1) by apply S. replace (r_last_gps s2) with (r_last_gps s1) by apply S. replace (r_last_glo s2) with (r_last_glo s1) by apply S.
  destruct (compute_glo_time _ _ _) as [[|] [t|]]; try (split; [exact S|reflexivity]). destruct (negb (gps_time_valid t)); [split; [exact S|reflexivity]|]. destruct (negb (_ || _)); [split; [exact S|reflexivity]|]. destruct (gps_time_valid (r_last_msm s1) && _); [split; [exact S|reflexivity]|].
  destruct (negb _ || _); [|split; [exact S|reflexivity]]. apply add_obs_same; same_tac.
Qed.
Lemma msm_time_same c tow s1 s2 : same_t s1 s2 ->
  option_map fst (msm_time (other_out := O1) c tow s1) = option_map fst (msm_time (other_out := O2) c tow s2) /\
  (forall t o1 o2, msm_time (other_out := O1) c tow s1 = Some (t, o1) -> msm_time (other_out := O2) c tow s2 = Some (t, o2) -> observations o1 = observations o2).
Proof.
  intros S. unfold msm_time, glo_window, leap_of. replace (r_time s2) with (r_time s1) by apply S. replace (r_leap s2) with (r_leap s1) by apply S. replace (r_last_gps s2) with (r_last_gps s1) by apply S.
  destruct c.
  1,3,4: (destruct (compute_gps_message_time _ _); [|split; [reflexivity|intros; discriminate]]; split; [reflexivity|intros t o1 o2 E1 E2; injection E1 as _ <-; injection E2 as _ <-; apply base_same]).
  destruct (snd (compute_glo_time _ _ _)) as [t|]; [destruct (negb (gps_time_valid t)); [|destruct (_ || _)]|]; (split; [reflexivity|intros x o1 o2 E1 E2; injection E1 as _ <-; injection E2 as _ <-; reflexivity]).
Qed.
Lemma add_msm_same c m s1 s2 : same_t s1 s2 -> rel same_t (add_msm c m s1) (add_msm c m s2).
Proof.
  intros S. unfold add_msm. pose proof (msm_time_same c (m_tow_ms m) s1 s2 S) as [T TO].
  destruct (msm_time c (m_tow_ms m) s1) as [[t1 p1]|], (msm_time c (m_tow_ms m) s2) as [[t2 p2]|]; cbn [option_map fst] in T; try discriminate T; [|exact I]. injection T as <-. specialize (TO _ _ _ eq_refl eq_refl).
  destruct t1 as [t|]; [|split; [exact S|exact TO]]. replace (r_last_gps s2) with (r_last_gps s1) by apply S. destruct (negb _ && _); [split; [exact S|exact TO]|].
  unfold is_msm_active. replace (r_last_msm s2) with (r_last_msm s1) by apply S. replace (r_buf s2) with (r_buf s1) by apply S. set (cl := negb (_ && _) && _).
  assert (F : same_t (set_last (if cl then set_buf s1 0 0 [] else s1) t t t) (set_last (if cl then set_buf s2 0 0 [] else s2) t t t)) by (destruct cl; same_tac).
  cbv zeta. set (a1 := set_last (if cl then set_buf s1 0 0 [] else s1) t t t) in *. set (a2 := set_last (if cl then set_buf s2 0 0 [] else s2) t t t) in *. clearbody a1 a2 cl.
  replace (r_buf a2) with (r_buf a1) by apply F. replace (r_obs_tow a2) with (r_obs_tow a1) by apply F. replace (r_sender a2) with (r_sender a1) by apply F. set (fl := negb _ && _). clearbody fl.
  assert (G : rel same_t (if fl then match send_observations a1 with None => None | Some (s, o') => Some (s, ONotEmpty :: o') end else Some (a1, []))
                         (if fl then match send_observations a2 with None => None | Some (s, o') => Some (s, ONotEmpty :: o') end else Some (a2, []))).
  { destruct fl; [|split; [exact F|reflexivity]]. pose proof (send_same same_t a1 a2 (or_intror eq_refl) F) as Q. destruct (send_observations a1) as [[b1 q1]|], (send_observations a2) as [[b2 q2]|]; cbn [rel] in *; try tauto. }
  destruct (if fl then _ else Some (a1, [])) as [[b1 q1]|], (if fl then _ else Some (a2, [])) as [[b2 q2]|]; cbn [rel] in G; try tauto. destruct G as [G GO].
  cbn [set_sender set_buf r_buf]. replace (r_buf b2) with (r_buf b1) by apply G. destruct (fill_msm (r_buf b1) (m_cands m)) as [b full]. split; [same_tac|]. rewrite !observations_app, TO, GO. destruct full; reflexivity.
Qed.

Variables (carrier num_of : code -> Z) (op : opts) (masked : RtcmMsm_model.cons -> bool) (utc_offset : gtime -> Z) (consts : Z -> dbl).
Variable rest1 : Z -> list Z -> st1 -> A1 * list O1.
Variable rest2 : Z -> list Z -> st2 -> A2 * list O2.
Notation step1 := (rx_step carrier num_of op masked utc_offset consts rest1).
Notation step2 := (rx_step carrier num_of op masked utc_offset consts rest2).
Lemma step_same tin p s1 s2 : same s1 s2 -> rel same (step1 tin p s1) (step2 tin p s2).
Proof.
  intros S. unfold rx_step, fcns. replace (fst (r_aux s2)) with (fst (r_aux s1)) by apply S. destruct (match tin with Some _ => _ | None => false end); [exact I|].
  unfold decode_payload. destruct (len p <? 2); [split; [exact S|reflexivity]|]. cbv zeta. set (ty := message_type p). set (tm := match tin with Some t => t | None => _ end).
  assert (S1 : same (set_time s1 tm) (set_time s2 tm)) by exact S. destruct (match tin with None => _ | Some _ => false end) eqn:GT; [split; [exact S1|reflexivity]|].
  set (a1 := match tin with Some t => set_leap (set_time s1 tm) (Some (utc_offset t)) | None => set_time s1 tm end). set (a2 := match tin with Some t => set_leap (set_time s2 tm) (Some (utc_offset t)) | None => set_time s2 tm end).
  assert (B : same a1 a2 /\ (tin <> None -> same_t a1 a2)) by (subst a1 a2; destruct tin; split; try exact S; try congruence; intros _; split; [exact S|split; reflexivity]).
  destruct B as [B BT].
  assert (NK : tin = None -> kind_of ty = KOther /\ ty <> 1020).
  { intros ->. apply negb_false_iff in GT. apply existsb_exists in GT. destruct GT as (x & I & E). apply Z.eqb_eq in E. clear -I E. rewrite E. unfold ungated in I. cbn [In] in I. repeat (destruct I as [<-|I]; [split; [reflexivity|discriminate]|]). destruct I. }
  assert (M : rel same
    match kind_of ty with
    | KGps => match legacy_dec num_of op ty p with Some m => add_gps m a1 | None => Some (a1, []) end
    | KGlo => match legacy_dec num_of op ty p with Some m => match r_leap a1 with Some _ => add_glo m a1 | None => Some (a1, []) end | None => Some (a1, []) end
    | KMsm c => match msm_dec carrier num_of op masked (fst (r_aux s1)) ty p with Some m => add_msm c m a1 | None => Some (a1, []) end
    | KOther => let '(a, os) := rx_other consts rest1 ty p a1 in Some (set_aux a1 a, map (fun o => OOther o) os)
    end
    match kind_of ty with
    | KGps => match legacy_dec num_of op ty p with Some m => add_gps m a2 | None => Some (a2, []) end
    | KGlo => match legacy_dec num_of op ty p with Some m => match r_leap a2 with Some _ => add_glo m a2 | None => Some (a2, []) end | None => Some (a2, []) end
    | KMsm c => match msm_dec carrier num_of op masked (fst (r_aux s1)) ty p with Some m => add_msm c m a2 | None => Some (a2, []) end
    | KOther => let '(a, os) := rx_other consts rest2 ty p a2 in Some (set_aux a2 a, map (fun o => OOther o) os)
    end).
  { destruct (kind_of ty) as [| |c|] eqn:K.
    - assert (T : same_t a1 a2) by (apply BT; intros N; destruct (NK N); discriminate). destruct (legacy_dec num_of op ty p); [apply rel_weaken, add_gps_same; exact T|split; [exact B|reflexivity]].
    - assert (T : same_t a1 a2) by (apply BT; intros N; destruct (NK N); discriminate). destruct (legacy_dec num_of op ty p); [|split; [exact B|reflexivity]]. replace (r_leap a2) with (r_leap a1) by apply T. destruct (r_leap a1); [apply rel_weaken, add_glo_same; exact T|split; [exact B|reflexivity]].
    - assert (T : same_t a1 a2) by (apply BT; intros N; destruct (NK N); discriminate). destruct (msm_dec carrier num_of op masked (fst (r_aux s1)) ty p); [apply rel_weaken, add_msm_same; exact T|split; [exact B|reflexivity]].
    - unfold rx_other. destruct (rest1 ty p a1) as [x1 l1], (rest2 ty p a2) as [x2 l2]. split; [|rewrite !observations_other; reflexivity].
      assert (FC : (if ty =? 1020 then learn_fcn consts p a1 else fcns a1) = (if ty =? 1020 then learn_fcn consts p a2 else fcns a2)).
      { destruct (Z.eqb_spec ty 1020) as [E|E]; [|apply B]. assert (T : same_t a1 a2) by (apply BT; intros N; destruct (NK N); contradiction). unfold learn_fcn, fcns. replace (r_time a2) with (r_time a1) by apply T. replace (r_leap a2) with (r_leap a1) by apply T. replace (fst (r_aux a2)) with (fst (r_aux a1)) by apply T. reflexivity. }
      unfold same, set_aux in *. cbn [r_sender r_last_gps r_last_glo r_last_msm r_obs_wn r_obs_tow r_buf r_aux fst] in *. intuition. }
  clearbody a1 a2. match type of M with rel _ ?x ?y => set (m1 := x) in *; set (m2 := y) in * end. clearbody m1 m2.
  destruct m1 as [[b1 o1]|], m2 as [[b2 o2]|]; cbn [rel] in M; try tauto. destruct M as [M MO]. destruct (_ && _ && _ && _); [|split; assumption].
  pose proof (send_same same b1 b2 (or_introl eq_refl) M) as Q. destruct (send_observations b1) as [[c1 q1]|], (send_observations b2) as [[c2 q2]|]; cbn [rel] in *; try tauto. destruct Q as [Q QO]. split; [exact Q|]. rewrite !observations_app, MO, QO. reflexivity.
Qed.
Lemma run_same l : forall s1 s2, same s1 s2 -> rel same (rx_run carrier num_of op masked utc_offset consts rest1 l s1) (rx_run carrier num_of op masked utc_offset consts rest2 l s2).
Proof.
  induction l as [|[tin p] l IH]; intros s1 s2 S; cbn [rx_run]; [split; [exact S|reflexivity]|]. pose proof (step_same tin p s1 s2 S) as Q.
  destruct (step1 tin p s1) as [[a1 o1]|], (step2 tin p s2) as [[a2 o2]|]; cbn [rel] in Q; try tauto. destruct Q as [Q QO]. specialize (IH a1 a2 Q).
  destruct (rx_run _ _ _ _ _ _ rest1 l a1) as [[b1 p1]|], (rx_run _ _ _ _ _ _ rest2 l a2) as [[b2 p2]|]; cbn [rel] in *; try tauto. destruct IH as [IH IO]. split; [exact IH|]. rewrite !observations_app, QO, IO. reflexivity.
Qed.
End Sim.

Section Skip.
Context {A O : Type}.
Notation st := (rstate pobs (list Z * A)).
Variables (carrier num_of : code -> Z) (op : opts) (masked : RtcmMsm_model.cons -> bool) (utc_offset : gtime -> Z) (consts : Z -> dbl).
Variable rest : Z -> list Z -> st -> A * list O.
Lemma same_refl (s : st) : same s s. Proof. unfold same. tauto. Qed.
Lemma same_trans {A1 A2 A3} (a : rstate pobs (list Z * A1)) (b : rstate pobs (list Z * A2)) (c : rstate pobs (list Z * A3)) : same a b -> same b c -> same a c.
Proof. unfold same. intuition congruence. Qed.
Lemma same_sym {A1 A2} (a : rstate pobs (list Z * A1)) (b : rstate pobs (list Z * A2)) : same a b -> same b a.
Proof. unfold same. intuition congruence. Qed.
(** any other message leaves the observations alone *)
Lemma step_skip tin p (s : st) : concerns_observations p = false -> exists s' o, rx_step carrier num_of op masked utc_offset consts rest tin p s = Some (s', o) /\ same s s' /\ observations o = [].
Proof.
  intros C. unfold concerns_observations in C. unfold rx_step, decode_payload. destruct (len p <? 2) eqn:L.
  - replace (2 <=? len p) with false by (symmetry; apply Z.leb_gt; apply Z.ltb_lt; exact L). cbn [andb]. exists s, []. destruct tin; (split; [reflexivity|split; [apply same_refl|reflexivity]]).
  - replace (2 <=? len p) with true in C by (symmetry; apply Z.leb_le; apply Z.ltb_ge in L; exact L). cbn [andb] in C. apply orb_false_iff in C. destruct C as [C CR]. cbn [existsb] in C. rewrite !orb_false_iff in C. destruct C as (C1 & C2 & C3 & C4 & C5 & _).
    unfold rx_undefined. cbv zeta. set (ty := message_type p) in *.
    assert (K : ObsBuffer_model.kind_of ty = KOther).
    { unfold kind_of. rewrite C1, C2, C3, C4. cbn [orb]. apply andb_false_iff in CR. rewrite !Z.leb_gt in CR.
      replace ((1074 <=? ty) && (ty <=? 1077)) with false by (symmetry; apply andb_false_iff; rewrite !Z.leb_gt; lia). replace ((1084 <=? ty) && (ty <=? 1087)) with false by (symmetry; apply andb_false_iff; rewrite !Z.leb_gt; lia).
      replace ((1094 <=? ty) && (ty <=? 1097)) with false by (symmetry; apply andb_false_iff; rewrite !Z.leb_gt; lia). replace ((1124 <=? ty) && (ty <=? 1127)) with false by (symmetry; apply andb_false_iff; rewrite !Z.leb_gt; lia). reflexivity. }
    rewrite K, CR. replace (match tin with Some _ => (2 <=? len p) && false | None => false end) with false by (destruct tin; [rewrite andb_false_r|]; reflexivity). cbn [andb].
    destruct (match tin with None => _ | Some _ => false end); [eexists _, []; split; [reflexivity|split; [exact (same_refl s)|reflexivity]]|].
    unfold rx_other. rewrite C5. destruct (rest ty p _) as [x l]. eexists _, _. split; [reflexivity|]. split; [|apply observations_other]. destruct tin; exact (same_refl s).
Qed.
Lemma run_skip l : forall s : st, rel same (rx_run carrier num_of op masked utc_offset consts rest l s) (rx_run carrier num_of op masked utc_offset consts rest (filter (fun e => concerns_observations (snd e)) l) s).
Proof.
  induction l as [|[tin p] l IH]; intros s; cbn [rx_run filter snd]; [split; [apply same_refl|reflexivity]|]. destruct (concerns_observations p) eqn:C.
  - cbn [rx_run]. destruct (rx_step _ _ _ _ _ _ rest tin p s) as [[a o]|]; [|exact I]. specialize (IH a). destruct (rx_run _ _ _ _ _ _ rest l a) as [[b q]|], (rx_run _ _ _ _ _ _ rest (filter _ l) a) as [[b2 q2]|]; cbn [rel] in *; try tauto. destruct IH as [IH IO]. split; [exact IH|]. rewrite !observations_app, IO. reflexivity.
  - destruct (step_skip tin p s C) as (a & o & E & SA & OE). rewrite E. specialize (IH a). pose proof (run_same carrier num_of op masked utc_offset consts rest rest (filter (fun e => concerns_observations (snd e)) l) a s (same_sym _ _ SA)) as Q.
    destruct (rx_run _ _ _ _ _ _ rest l a) as [[b q]|], (rx_run _ _ _ _ _ _ rest (filter _ l) a) as [[b2 q2]|], (rx_run _ _ _ _ _ _ rest (filter _ l) s) as [[b3 q3]|]; cbn [rel] in *; try tauto.
    destruct IH as [IH IO], Q as [Q QO]. split; [eapply same_trans; eassumption|]. rewrite observations_app, OE, IO. exact QO.
Qed.
End Skip.

(** ** the other messages *)
Section Other.
Variables (carrier num_of : code -> Z) (op : opts) (masked : RtcmMsm_model.cons -> bool) (utc_offset : gtime -> Z) (consts : Z -> dbl).
Variables (g : msg_1005) (adj : Z -> Z) (mw : Z -> Z -> option Z) (sbp_ok : Z -> list Z -> bool).
Notation st := (rstate pobs (list Z * raux)).
Notation frest := (full_rest g consts adj mw sbp_ok).
Notation fout := (out pobs rout).
Definition others (l : list fout) : list rout := flat_map (fun o => match o with OOther x => [x] | _ => [] end) l.
Lemma others_app a b : others (a ++ b) = others a ++ others b. Proof. apply flat_map_app. Qed.
Lemma others_map l : others (map (fun x => OOther x) l) = l. Proof. induction l as [|x l IH]; [reflexivity|]. cbn. f_equal. exact IH. Qed.
Definition aux_of (s : st) : raux := snd (r_aux s).
Definition quiet (x : option (st * list fout)) (s : st) : Prop := match x with Some (s', o) => aux_of s' = aux_of s /\ others o = [] | None => True end.
Lemma send_loop_quiet total k : forall i rest (s : st), others (send_loop s total k i rest) = [].
Proof. induction k as [|k IH]; intros i rest s; [reflexivity|]. cbn [send_loop]. exact (IH _ _ s). Qed.
Lemma send_quiet (s : st) : quiet (send_observations s) s.
Proof. unfold send_observations. destruct (_ && _); [|exact I]. split; [reflexivity|apply send_loop_quiet]. Qed.
Lemma base_quiet t r : others (base_sanity t r) = []. Proof. unfold base_sanity. destruct (_ && _); reflexivity. Qed.
Lemma add_obs_quiet m t (s : st) : quiet (add_obs_to_buffer m t s) s.
Proof.
  unfold add_obs_to_buffer. cbv zeta. set (fl := _ && _). clearbody fl. assert (F : quiet (if fl then send_observations s else Some (s, [])) s) by (destruct fl; [apply send_quiet|split; reflexivity]).
  destruct (if fl then _ else _) as [[a o]|]; [|exact I]. destruct F as [F FO]. destruct (fill_legacy _ _) as [b full]. destruct full; [split; [exact F|rewrite others_app, FO; reflexivity]|].
  destruct (l_sync m =? 0); [|split; [exact F|exact FO]]. match goal with |- context [send_observations ?x] => pose proof (send_quiet x) as Q; destruct (send_observations x) as [[c q]|] end; [|exact I]. destruct Q as [Q QO]. split; [rewrite Q; exact F|]. rewrite others_app, FO, QO. reflexivity.
Qed.
Lemma add_gps_quiet m (s : st) : quiet (add_gps m s) s.
Proof.
  unfold add_gps. destruct (compute_gps_message_time _ _) as [t|]; [|exact I]. cbv zeta. destruct (negb _); [split; [reflexivity|apply base_quiet]|]. destruct (is_msm_active t s); [split; [reflexivity|apply base_quiet]|]. destruct (_ || _); [|split; [reflexivity|apply base_quiet]].
  match goal with |- context [add_obs_to_buffer m t ?x] => pose proof (add_obs_quiet m t x) as Q; destruct (add_obs_to_buffer m t x) as [[c q]|] end; [|exact I]. destruct Q as [Q QO]. split; [exact Q|]. rewrite others_app, base_quiet, QO. reflexivity.
Qed.
Lemma add_glo_quiet m (s : st) : quiet (add_glo m s) s.
Proof.
  unfold add_glo. destruct (compute_glo_time _ _ _) as [[|] [t|]]; try (split; reflexivity). destruct (negb _); [split; reflexivity|]. destruct (negb _); [split; reflexivity|]. destruct (is_msm_active t s); [split; reflexivity|]. destruct (_ || _); [|split; reflexivity]. exact (add_obs_quiet m t _).
Qed.
Lemma msm_time_quiet c tow (s : st) t o : msm_time c tow s = Some (t, o) -> others o = [].
Proof.
  unfold msm_time. destruct c.
  1,3,4: (destruct (compute_gps_message_time _ _); [|discriminate]; intros E; injection E as _ <-; apply base_quiet).
  destruct (snd _) as [x|]; [destruct (negb _); [|destruct (glo_window _ _ _)]|]; intros E; injection E as _ <-; reflexivity.
Qed.
Lemma add_msm_quiet c m (s : st) : quiet (add_msm c m s) s.
Proof.
  unfold add_msm. destruct (msm_time c (m_tow_ms m) s) as [[t0 p]|] eqn:MT; [|exact I]. apply msm_time_quiet in MT. destruct t0 as [t|]; [|split; [reflexivity|exact MT]]. destruct (_ && _); [split; [reflexivity|exact MT]|].
  cbv zeta. set (a := set_last _ _ _ _). assert (AA : aux_of a = aux_of s) by (subst a; destruct (_ && _); reflexivity). clearbody a. set (fl := _ && _). clearbody fl.
  assert (F : quiet (if fl then match send_observations a with None => None | Some (s, o') => Some (s, ONotEmpty :: o') end else Some (a, [])) a).
  { destruct fl; [|split; reflexivity]. pose proof (send_quiet a) as Q. destruct (send_observations a) as [[b q]|]; [exact Q|exact I]. }
  destruct (if fl then _ else Some (a, [])) as [[b q]|]; [|exact I]. destruct F as [F FO]. destruct (fill_msm _ _) as [bb full]. split; [exact (eq_trans F AA)|]. rewrite !others_app, MT, FO. destruct full; reflexivity.
Qed.
(** what the whole receiver makes of one payload besides observations *)
Definition rest_of (tin : option gtime) (p : list Z) (x : raux) : raux * list rout :=
  let '(last, warned) := x in
  let '((last, o1), u1) := of_res (StaConv_model.sta_rx g tin last p) (last, []) in
  let o2 := eph_rx consts adj mw (match tin with Some _ => true | None => false end) (match tin with Some t => t | None => T_UNKNOWN end) (match tin with Some t => Some (utc_offset t) | None => None end) p in
  let '((warned, o3), u3) := of_res (tunnel_rx sbp_ok (match tin with Some _ => true | None => false end) p (len p) warned) (warned, []) in
  ((last, warned), map RSta o1 ++ map REph o2 ++ map RTun o3 ++ u1 ++ u3).
Lemma ungated_types ty : existsb (Z.eqb ty) ungated = true -> In ty ungated.
Proof. intros H. apply existsb_exists in H. destruct H as (x & I & E). apply Z.eqb_eq in E. subst x. exact I. Qed.
Definition mine : list Z := [1005; 1006; 1033; 1230; 1019; 1042; 1045; 1046; 1020; 1044; 1029; 4062; 4075] ++ msm123.
(** a message of any other type *)
Lemma rest_none tin p x : 2 <= len p -> existsb (Z.eqb (message_type p)) mine = false -> rest_of tin p x = (x, []).
Proof.
  intros L H. unfold mine in H. rewrite existsb_app in H. apply orb_false_iff in H. destruct H as [H HM]. cbn [existsb] in H. rewrite !orb_false_iff in H. destruct H as (H1 & H2 & H3 & H4 & H5 & H6 & H7 & H8 & H9 & H10 & H11 & H12 & H13 & _).
  unfold rest_of, StaConv_model.sta_rx, eph_rx, tunnel_rx. rewrite take_all by lia. destruct (Z.ltb_spec (len p) 2); [lia|]. cbv zeta. change (StaConv_model.frame_type p) with (message_type p). set (ty := message_type p) in *. clearbody ty.
  rewrite H1, H2, H3, H4, H5, H6, H7, H8, H9, H10, H11, H12, H13, HM. destruct x as [last warned]. destruct tin; cbn [negb andb]; [reflexivity|]. destruct (negb _); reflexivity.
Qed.
Lemma rest_gated p x : 2 <= len p -> existsb (Z.eqb (message_type p)) ungated = false -> rest_of None p x = (x, []).
Proof.
  intros L H. pose proof H as H0. unfold ungated in H. cbn [existsb] in H. rewrite !orb_false_iff in H.
  unfold rest_of, StaConv_model.sta_rx, eph_rx, tunnel_rx. rewrite take_all by lia. destruct (Z.ltb_spec (len p) 2); [lia|]. cbv zeta. change (StaConv_model.frame_type p) with (message_type p). set (ty := message_type p) in *. clearbody ty.
  destruct H as (G1 & G2 & H). rewrite G1, G2, H0. repeat match type of H with _ /\ _ => let X := fresh in destruct H as [X H]; try rewrite X end. destruct x as [last warned]. reflexivity.
Qed.
Lemma rest_short tin p x : len p < 2 -> rest_of tin p x = (x, []).
Proof.
  intros L. unfold rest_of, StaConv_model.sta_rx, eph_rx, tunnel_rx. rewrite take_all by lia. destruct (Z.ltb_spec (len p) 2); [|lia]. destruct x as [last warned]. reflexivity.
Qed.
Lemma rest_full tin p (s : st) : 2 <= len p -> match tin with Some t => r_time s = t /\ r_leap s = Some (utc_offset t) | None => existsb (Z.eqb (message_type p)) ungated = true end ->
  frest (message_type p) p s = rest_of tin p (aux_of s).
Proof.
  intros L H. unfold full_rest, rest_of, aux_of. destruct (snd (r_aux s)) as [last warned]. destruct tin as [t|].
  - destruct H as [-> ->]. reflexivity.
  - apply ungated_types in H. unfold StaConv_model.sta_rx, eph_rx, tunnel_rx. rewrite take_all by lia. destruct (Z.ltb_spec (len p) 2); [lia|]. cbv zeta. change (StaConv_model.frame_type p) with (message_type p). set (ty := message_type p) in *. clearbody ty.
    unfold ungated in H. cbn [In] in H. repeat (destruct H as [<-|H]; [reflexivity|]). destruct H.
Qed.
Lemma kind_mine ty : kind_of ty <> KOther -> existsb (Z.eqb ty) mine = false.
Proof.
  intros K. destruct (existsb (Z.eqb ty) mine) eqn:E; [|reflexivity]. exfalso. apply K. apply existsb_exists in E. destruct E as (x & I & E). apply Z.eqb_eq in E. subst x. unfold mine, msm123 in I. cbn [In app] in I. repeat (destruct I as [<-|I]; [reflexivity|]). destruct I.
Qed.
Lemma step_rest tin p (s s' : st) o : rx_step carrier num_of op masked utc_offset consts frest tin p s = Some (s', o) -> rest_of tin p (aux_of s) = (aux_of s', others o).
Proof.
  unfold rx_step. destruct (match tin with Some _ => _ | None => false end); [discriminate|]. unfold decode_payload. destruct (Z.ltb_spec (len p) 2) as [L|L]; [intros E; injection E as <- <-; apply rest_short; exact L|]. cbv zeta.
  set (ty := message_type p). set (tm := match tin with Some t => t | None => _ end). destruct (match tin with None => _ | Some _ => false end) eqn:GT.
  { intros E. injection E as <- <-. destruct tin; [discriminate GT|]. apply negb_true_iff in GT. exact (rest_gated p _ L GT). }
  set (a := match tin with Some t => set_leap (set_time s tm) (Some (utc_offset t)) | None => set_time s tm end).
  assert (AA : aux_of a = aux_of s) by (subst a; destruct tin; reflexivity).
  assert (AT : match tin with Some t => r_time a = t /\ r_leap a = Some (utc_offset t) | None => existsb (Z.eqb ty) ungated = true end) by (subst a tm; destruct tin; [split; reflexivity|apply negb_false_iff; exact GT]).
  clearbody a. clear tm GT.
  match goal with |- match ?r with _ => _ end = _ -> _ => assert (M : match r with Some (b, q) => rest_of tin p (aux_of s) = (aux_of b, others q) | None => True end); [|destruct r as [[b q]|]; [|discriminate]] end.
  { destruct (kind_of ty) as [| |c|] eqn:K.
    4: { pose proof (rest_full tin p a L AT) as R. unfold rx_other. fold ty in R. rewrite AA in R. destruct (frest ty p a) as [x l]. rewrite <- R, others_map. reflexivity. }
    all: (assert (N : rest_of tin p (aux_of s) = (aux_of s, [])) by (apply rest_none; [exact L|apply kind_mine; fold ty; rewrite K; discriminate])).
    - destruct (legacy_dec num_of op ty p) as [m|]; [|rewrite AA; exact N]. pose proof (add_gps_quiet m a) as Q. destruct (add_gps m a) as [[b q]|]; [|exact I]. destruct Q as [-> ->]. rewrite AA. exact N.
    - destruct (legacy_dec num_of op ty p) as [m|]; [|rewrite AA; exact N]. destruct (r_leap a); [|rewrite AA; exact N]. pose proof (add_glo_quiet m a) as Q. destruct (add_glo m a) as [[b q]|]; [|exact I]. destruct Q as [-> ->]. rewrite AA. exact N.
    - destruct (msm_dec _ _ _ _ _ ty p) as [m|]; [|rewrite AA; exact N]. pose proof (add_msm_quiet c m a) as Q. destruct (add_msm c m a) as [[b q]|]; [|exact I]. destruct Q as [-> ->]. rewrite AA. exact N. }
  destruct (_ && _ && _ && _); [|intros E; injection E as <- <-; exact M]. pose proof (send_quiet b) as Q. destruct (send_observations b) as [[c q2]|]; [|discriminate]. intros E. injection E as <- <-. destruct Q as [-> QO]. rewrite others_app, QO, app_nil_r. exact M.
Qed.
End Other.
