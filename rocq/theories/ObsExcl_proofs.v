(** Proofs for C73. *)
From Verif Require Import Base Bits_model Time_model Time_proofs ObsBuffer_model ObsBuffer_spec ObsBuffer_proofs ObsExcl_spec Properties_time.

Lemma diff_ms a b : gps_time_valid a = true -> gps_time_valid b = true -> gpsdifftime a b = at_ms a - at_ms b.
Proof. intros A B. apply gps_valid_spec in A, B. rewrite known_diff by lia. unfold at_ms, WEEK_MS. reflexivity. Qed.
Lemma fresh_false t u : gps_time_valid t = true -> gps_time_valid u = true -> at_ms t <= at_ms u -> negb (gps_time_valid u) || (1 <=? gpsdifftime t u) = false.
Proof. intros V W L. rewrite W. cbn [negb orb]. rewrite diff_ms by assumption. apply Z.leb_gt. lia. Qed.
Lemma not_tail ty : In ty [1002; 1004; 1010; 1012] -> forall p, (1070 <=? ty) && (ty <=? 1229) && (54 <=? len p * 8) && (getbitu p 54 1 =? 0) = false.
Proof. intros H p. cbn [In] in H. destruct (Z.leb_spec 1070 ty); [exfalso; lia|reflexivity]. Qed.
Definition later (a b : gtime) : Prop := a = b \/ (gps_time_valid b = true /\ (gps_time_valid a = true -> at_ms a < at_ms b)).
Lemma later_refl a : later a a.
Proof. left. reflexivity. Qed.
Lemma later_trans a b c : later a b -> later b c -> later a c.
Proof. intros [->|(A & B)] [->|(C & D)]; [left; reflexivity|right; auto|right; auto|]. right. split; [exact C|]. intros V. specialize (B V). specialize (D A). lia. Qed.
Lemma accepted_later t u : gps_time_valid t = true -> negb (gps_time_valid u) || (1 <=? gpsdifftime t u) = true -> later u t.
Proof.
  intros V H. right. split; [exact V|]. intros W. rewrite W in H. cbn [negb orb] in H. apply Z.leb_le in H. rewrite diff_ms in H by assumption. lia.
Qed.
Lemma tow_of_ms t x : gps_time_valid t = true -> at_ms t = x -> x mod 604800000 <> 0 -> tow t <> 0.
Proof. intros V X N Q. apply N. rewrite <- X. unfold at_ms. rewrite Q, Z.add_0_r. apply Z.mod_mul. lia. Qed.
Lemma later_blocks a b x : later a b -> gps_time_valid a = true /\ x <= at_ms a -> gps_time_valid b = true /\ x <= at_ms b.
Proof. intros [->|(V & L)] (A & B); [auto|]. split; [exact V|]. specialize (L A). lia. Qed.

Section P.
Context {obs other_out aux : Type}.
Notation out := (out obs other_out).
Notation rstate := (rstate obs aux).

(** states that agree on everything that matters for observations *)
Definition sim (s s' : rstate) : Prop := r_sender s = r_sender s' /\ r_last_gps s = r_last_gps s' /\ r_last_glo s = r_last_glo s' /\ r_last_msm s = r_last_msm s' /\
  r_obs_wn s = r_obs_wn s' /\ r_obs_tow s = r_obs_tow s' /\ r_buf s = r_buf s'.
Definition amap (a : aux) (r : option (rstate * list out)) : option (rstate * list out) := option_map (fun x => (set_aux (fst x) a, snd x)) r.
Definition relo (a b : option (rstate * list out)) : Prop :=
  match a, b with None, None => True | Some (s, o), Some (s', o') => sim s s' /\ seen o = seen o' | _, _ => False end.

Lemma seen_app (a b : list out) : seen (a ++ b) = seen a ++ seen b.
Proof. apply filter_app. Qed.
Lemma sim_refl s : sim s s.
Proof. unfold sim. auto 8. Qed.
Lemma sim_trans a b c : sim a b -> sim b c -> sim a c.
Proof. unfold sim. intuition congruence. Qed.
Lemma sim_sym a b : sim a b -> sim b a.
Proof. unfold sim. intuition congruence. Qed.
Lemma sim_aux s a : sim s (set_aux s a).
Proof. unfold sim. cbn. auto 8. Qed.
Lemma amap_relo a r : relo r (amap a r).
Proof. destruct r as [[s o]|]; cbn; [split; [apply sim_aux|reflexivity]|exact I]. Qed.

Lemma loop_aux (s : rstate) a : forall total k i rest, send_loop (other_out := other_out) (set_aux s a) total k i rest = send_loop s total k i rest.
Proof. intros total k. induction k as [|k IH]; intros i rest; [reflexivity|]. cbn [send_loop]. rewrite IH. reflexivity. Qed.
Lemma send_aux (s : rstate) a : send_observations (set_aux s a) = amap a (send_observations s).
Proof. unfold send_observations. cbn [r_buf set_aux]. destruct (_ && _); [|reflexivity]. rewrite loop_aux. reflexivity. Qed.
Lemma add_obs_aux m t (s : rstate) a : add_obs_to_buffer m t (set_aux s a) = amap a (add_obs_to_buffer m t s).
Proof.
  unfold add_obs_to_buffer. cbn [r_buf r_obs_tow r_sender set_aux].
  assert (F : (if negb (len (r_buf s) =? 0) && (negb (r_obs_tow s =? tow t) || negb (r_sender s =? sender_of (l_stn m))) then send_observations (set_aux s a) else Some (set_aux s a, []))
     = amap a (if negb (len (r_buf s) =? 0) && (negb (r_obs_tow s =? tow t) || negb (r_sender s =? sender_of (l_stn m))) then send_observations s else Some (s, [])))
    by (destruct (_ && _); [apply send_aux|reflexivity]).
  rewrite F. clear F. match goal with |- context [amap a ?r] => destruct r as [[x o]|]; [|reflexivity] end. cbn [amap option_map fst snd r_buf set_aux].
  cbn [r_buf set_sender set_buf]. destruct (fill_legacy (r_buf x) (l_cands m)) as [b full]. destruct full; [reflexivity|]. destruct (l_sync m =? 0); [|reflexivity].
  rewrite (send_aux (set_buf (set_sender (set_buf x (wn t) (tow t) (r_buf x)) (sender_of (l_stn m))) (wn t) (tow t) b) a : send_observations (set_buf (set_sender (set_buf (set_aux x a) (wn t) (tow t) (r_buf x)) (sender_of (l_stn m))) (wn t) (tow t) b) = _).
  destruct (send_observations _) as [[y oy]|]; reflexivity.
Qed.
Lemma add_gps_aux m (s : rstate) a : add_gps m (set_aux s a) = amap a (add_gps m s).
Proof.
  unfold add_gps. cbn [r_time set_aux]. destruct (compute_gps_message_time _ _) as [t|]; [|reflexivity].
  change (is_msm_active t (set_aux s a)) with (is_msm_active t s). destruct (negb (gps_time_valid t)); [reflexivity|]. destruct (is_msm_active t s); [reflexivity|].
  cbn [r_last_gps set_aux]. destruct (_ || _); [|reflexivity].
  change (set_last (set_aux s a) t (r_last_glo (set_aux s a)) (r_last_msm (set_aux s a))) with (set_aux (set_last s t (r_last_glo s) (r_last_msm s)) a).
  rewrite add_obs_aux. destruct (add_obs_to_buffer _ _ _) as [[x o]|]; reflexivity.
Qed.
Lemma add_glo_aux m (s : rstate) a : add_glo m (set_aux s a) = amap a (add_glo m s).
Proof.
  unfold add_glo. cbn [r_time r_leap set_aux]. destruct (compute_glo_time _ _ _) as [[|] [t|]]; try reflexivity.
  destruct (negb (gps_time_valid t)); [reflexivity|]. change (glo_window t (set_aux s a) (leap_of (set_aux s a))) with (glo_window t s (leap_of s)). destruct (negb _); [reflexivity|].
  change (is_msm_active t (set_aux s a)) with (is_msm_active t s). destruct (is_msm_active t s); [reflexivity|].
  cbn [r_last_glo set_aux]. destruct (_ || _); [|reflexivity].
  change (set_last (set_aux s a) (r_last_gps (set_aux s a)) t (r_last_msm (set_aux s a))) with (set_aux (set_last s (r_last_gps s) t (r_last_msm s)) a). apply add_obs_aux.
Qed.
Lemma msm_time_aux c tw (s : rstate) a : msm_time (obs := obs) (other_out := other_out) c tw (set_aux s a) = msm_time c tw s.
Proof. reflexivity. Qed.
Lemma add_msm_aux c m (s : rstate) a : add_msm c m (set_aux s a) = amap a (add_msm c m s).
Proof.
  unfold add_msm. rewrite msm_time_aux. destruct (msm_time c (m_tow_ms m) s) as [[[t|] o]|]; [|reflexivity|reflexivity].
  cbn [r_last_gps set_aux]. destruct (_ && (tow t =? 0)); [reflexivity|].
  change (is_msm_active t (set_aux s a)) with (is_msm_active t s).
  set (s1 := if negb (is_msm_active t s) && (0 <? len (r_buf s)) then set_buf s 0 0 [] else s).
  assert (E1 : (if negb (is_msm_active t s) && (0 <? len (r_buf (set_aux s a))) then set_buf (set_aux s a) 0 0 [] else set_aux s a) = set_aux s1 a).
  { unfold s1. cbn [r_buf set_aux]. destruct (_ && _); reflexivity. }
  rewrite E1. clearbody s1. clear E1. change (set_last (set_aux s1 a) t t t) with (set_aux (set_last s1 t t t) a). generalize (set_last s1 t t t). clear s1. intros s2.
  change (r_buf (set_aux s2 a)) with (r_buf s2). change (r_obs_tow (set_aux s2 a)) with (r_obs_tow s2). change (r_sender (set_aux s2 a)) with (r_sender s2).
  assert (F : (if negb (len (r_buf s2) =? 0) && (negb (r_obs_tow s2 =? tow t) || negb (r_sender s2 =? sender_of (m_stn m)))
               then match send_observations (set_aux s2 a) with None => None | Some (s, o') => Some (s, ONotEmpty :: o') end else Some (set_aux s2 a, []))
     = amap a (if negb (len (r_buf s2) =? 0) && (negb (r_obs_tow s2 =? tow t) || negb (r_sender s2 =? sender_of (m_stn m)))
               then match send_observations s2 with None => None | Some (s, o') => Some (s, ONotEmpty :: o') end else Some (s2, []))).
  { destruct (_ && _); [|reflexivity]. rewrite send_aux. destruct (send_observations s2) as [[x ox]|]; reflexivity. }
  rewrite F. clear F. match goal with |- context [amap a (if ?c then ?x else ?y)] => destruct (if c then x else y) as [[x' ox]|]; [|reflexivity] end.
  cbn [amap option_map fst snd]. cbn [r_buf set_aux set_sender set_buf]. destruct (fill_msm (r_buf x') (m_cands m)) as [b full]. reflexivity.
Qed.

Context (legacy_dec : Z -> list Z -> option (legacy_msg obs)) (msm_dec : Z -> list Z -> option (msm_msg obs)) (utc_offset : gtime -> Z)
        (other : Z -> list Z -> rstate -> aux * list other_out).
Notation decode_payload := (decode_payload legacy_dec msm_dec utc_offset other).
Notation decode_all := (decode_all legacy_dec msm_dec utc_offset other).

Lemma solved_only tin ty : match tin with None => negb (existsb (Z.eqb ty) ungated) | Some _ => false end = false -> kind_of ty <> KOther -> exists ref : gtime, tin = Some ref.
Proof.
  destruct tin as [r|]; intros G K; [exists r; reflexivity|]. exfalso. apply K. apply negb_false_iff, existsb_exists in G. destruct G as (x & Hx & E). apply Z.eqb_eq in E. subst x.
  unfold ungated in Hx. cbn [In] in Hx. repeat (destruct Hx as [<-|Hx]; [reflexivity|]). destruct Hx.
Qed.
Lemma sim_is s s' t l : sim s s' -> set_leap (set_time s' t) l = set_aux (set_leap (set_time s t) l) (r_aux s').
Proof. intros (E1 & E2 & E3 & E4 & E5 & E6 & E7). unfold set_aux, set_leap, set_time. cbn. congruence. Qed.
Lemma send_sim (s s' : rstate) : sim s s' -> relo (send_observations s) (send_observations s').
Proof.
  intros S. assert (L : forall total k i rest, send_loop (other_out := other_out) s total k i rest = send_loop s' total k i rest).
  { intros total k. induction k as [|k IH]; intros i rest; [reflexivity|]. cbn [send_loop]. rewrite IH. destruct S as (E1 & _ & _ & _ & E2 & E3 & _). rewrite E1, E2, E3. reflexivity. }
  unfold send_observations. destruct S as (E1 & E2 & E3 & E4 & E5 & E6 & E7). rewrite <- E7. destruct (_ && _); [|exact I]. cbn [relo]. split; [unfold sim; cbn; auto 8|]. rewrite L. reflexivity.
Qed.
Lemma seen_other l : seen (obs := obs) (map (OOther (other_out := other_out)) l) = [].
Proof. induction l as [|x l IH]; [reflexivity|exact IH]. Qed.
Lemma step_sim tin p (s s' : rstate) : sim s s' -> relo (decode_payload tin p s) (decode_payload tin p s').
Proof.
  intros S. unfold ObsBuffer_model.decode_payload. destruct (len p <? 2); [split; [exact S|reflexivity]|]. cbv zeta. set (ty := message_type p).
  assert (S0 : forall t t', sim (set_time s t) (set_time s' t')) by (intros; exact S).
  destruct (match tin with None => _ | Some _ => false end) eqn:G; [split; [apply S0|reflexivity]|].
  match goal with |- relo (match ?a with _ => _ end) (match ?b with _ => _ end) => assert (R : relo a b); [|] end.
  - destruct (kind_of ty) eqn:K.
    + destruct (solved_only tin ty G) as (ref & ->); [rewrite K; discriminate|]. destruct (legacy_dec ty p) as [m|]; [|split; [exact S|reflexivity]].
      rewrite (sim_is s s' _ _ S), add_gps_aux. apply amap_relo.
    + destruct (solved_only tin ty G) as (ref & ->); [rewrite K; discriminate|]. destruct (legacy_dec ty p) as [m|]; [|split; [exact S|reflexivity]].
      cbn [r_leap set_leap]. rewrite (sim_is s s' _ _ S), add_glo_aux. apply amap_relo.
    + destruct (solved_only tin ty G) as (ref & ->); [rewrite K; discriminate|]. destruct (msm_dec ty p) as [m|]; [|split; [exact S|reflexivity]].
      rewrite (sim_is s s' _ _ S), add_msm_aux. apply amap_relo.
    + destruct (other ty p _) as [a os]. destruct (other ty p _) as [a' os']. cbn [relo]. split; [|rewrite !seen_other; reflexivity].
      destruct tin; exact S.
  - match type of R with relo ?a ?b => destruct a as [[x o]|], b as [[x' o']|] end; cbn [relo] in R; try contradiction; try exact I. destruct R as [R1 R2].
    destruct (_ && _); [|split; assumption]. pose proof (send_sim x x' R1) as Q. destruct (send_observations x) as [[y oy]|], (send_observations x') as [[y' oy']|]; cbn [relo] in Q |- *; try contradiction; try exact I.
    destruct Q as [Q1 Q2]. split; [exact Q1|]. rewrite !seen_app, R2, Q2. reflexivity.
Qed.
Lemma all_sim l : forall s s', sim s s' -> relo (decode_all l s) (decode_all l s').
Proof.
  induction l as [|[tin p] l IH]; intros s s' S; cbn [ObsBuffer_model.decode_all]; [split; [exact S|reflexivity]|].
  pose proof (step_sim tin p s s' S) as R. destruct (decode_payload tin p s) as [[x o]|], (decode_payload tin p s') as [[x' o']|]; cbn [relo] in R; try contradiction; try exact I. destruct R as [R1 R2].
  specialize (IH x x' R1). destruct (decode_all l x) as [[y oy]|], (decode_all l x') as [[y' oy']|]; cbn [relo] in IH |- *; try contradiction; try exact I. destruct IH as [Q1 Q2].
  split; [exact Q1|]. rewrite !seen_app, R2, Q2. reflexivity.
Qed.
Lemma decode_all_app a : forall b s, decode_all (a ++ b) s = match decode_all a s with None => None | Some (s, o) => match decode_all b s with None => None | Some (s, o') => Some (s, o ++ o') end end.
Proof.
  induction a as [|[tin p] a IH]; intros b s; cbn [app ObsBuffer_model.decode_all]; [destruct (decode_all b s) as [[x o]|]; reflexivity|].
  destruct (decode_payload tin p s) as [[x o]|]; [|reflexivity]. rewrite IH. destruct (decode_all a x) as [[y oy]|]; [|reflexivity]. destruct (decode_all b y) as [[z oz]|]; [|reflexivity]. rewrite app_assoc. reflexivity.
Qed.
(** an event without effect in the state reached can be left out *)
Definition user_view (r : option (rstate * list out)) : option (list out) := option_map (fun x => seen (snd x)) r.
Lemma leave_out h1 e h3 s : (forall s1 o1, decode_all h1 s = Some (s1, o1) -> exists s2 o2, decode_payload (fst e) (snd e) s1 = Some (s2, o2) /\ sim s1 s2 /\ seen o2 = []) ->
  user_view (decode_all (h1 ++ e :: h3) s) = user_view (decode_all (h1 ++ h3) s).
Proof.
  intros H. rewrite !decode_all_app. destruct (decode_all h1 s) as [[s1 o1]|]; [|reflexivity]. destruct (H s1 o1 eq_refl) as (s2 & o2 & E & S & N). destruct e as [tin p]. cbn [fst snd] in E.
  cbn [ObsBuffer_model.decode_all]. rewrite E. pose proof (all_sim h3 s1 s2 S) as R. destruct (decode_all h3 s1) as [[x o]|], (decode_all h3 s2) as [[x' o']|]; cbn [relo] in R; try contradiction; [|reflexivity]. destruct R as [_ R].
  unfold user_view. cbn [option_map snd]. rewrite !seen_app, N, R. reflexivity.
Qed.
(** *** times *)
Lemma week_instant ref tw x : good_time utc_offset ref -> instant_of_week ref tw x -> exists t, compute_gps_message_time tw ref = Some t /\ gps_time_valid t = true /\ at_ms t = x.
Proof.
  intros (W & T & _) (R & M & D). destruct (C20_message_time_nearest tw ref R) as (t & E & Et & K & _ & U); [unfold known_time; lia|unfold inner_week; lia|].
  exists t. split; [exact E|]. split; [apply gps_valid_spec; exact K|].
  assert (Q : mkt (x / 604800000) tw = t).
  { apply U; [reflexivity|]. unfold ms_of. cbn [wn tow]. unfold at_ms in D. pose proof (Z.div_mod x 604800000 ltac:(lia)). rewrite M in H. replace (x / 604800000 * 604800000 + tw) with x by lia. exact D. }
  rewrite <- Q. unfold at_ms. cbn [wn tow]. pose proof (Z.div_mod x 604800000 ltac:(lia)). lia.
Qed.
Lemma day_instant ref tod x : good_time utc_offset ref -> instant_of_day utc_offset ref tod x ->
  exists t, compute_glo_time tod ref (Some (utc_offset ref)) = (true, Some t) /\ gps_time_valid t = true /\ at_ms t = x.
Proof.
  intros (W & T & L) (R & M & D). destruct (C21_glo_time_nearest tod ref (utc_offset ref) R) as (t & E & K & _ & _ & U); [unfold known_time; lia|unfold inner_week; lia|exact L|].
  exists t. split; [exact E|]. split; [apply gps_valid_spec; exact K|]. symmetry. apply (U x); [|exact D]. unfold glo_instant. rewrite <- M. f_equal; lia.
Qed.
Lemma window_ok t (s : rstate) ref x : r_time s = ref -> good_time utc_offset ref -> gps_time_valid t = true -> at_ms t = x -> plausible utc_offset ref x -> glo_window t s (utc_offset ref) = true.
Proof.
  intros E (W & T & _) V X P. unfold glo_window. rewrite E, diff_ms; [|exact V|apply gps_valid_spec; unfold WEEK_MS; lia]. rewrite X. unfold plausible in P. unfold GLO_SANITY_MS.
  apply orb_true_iff. left. apply Z.leb_le. exact P.
Qed.

(** *** what blocks a message *)
Definition msm_blocks (x : Z) (s : rstate) : Prop := gps_time_valid (r_last_msm s) = true /\ x - at_ms (r_last_msm s) < 5000.
Definition gps_blocks (x : Z) (s : rstate) : Prop := msm_blocks x s \/ (gps_time_valid (r_last_gps s) = true /\ x <= at_ms (r_last_gps s)).
Definition glo_blocks (x : Z) (s : rstate) : Prop := msm_blocks x s \/ (gps_time_valid (r_last_glo s) = true /\ x <= at_ms (r_last_glo s)).
Lemma active_iff t (s : rstate) : gps_time_valid t = true -> is_msm_active t s = true <-> msm_blocks (at_ms t) s.
Proof.
  intros V. unfold is_msm_active, msm_blocks, MSM_TIMEOUT_MS. rewrite andb_true_iff, Z.ltb_lt. split; intros [A B]; (split; [exact A|]); rewrite diff_ms in * by assumption; exact B.
Qed.
Lemma base_seen t rover : seen (base_sanity (obs := obs) (other_out := other_out) t rover) = [].
Proof. unfold base_sanity. destruct (_ && _); reflexivity. Qed.

Lemma gps_blocked e x (s : rstate) : legacy_gps legacy_dec utc_offset e x -> gps_blocks x s -> exists s2 o2, decode_payload (fst e) (snd e) s = Some (s2, o2) /\ sim s s2 /\ seen o2 = [].
Proof.
  intros (ref & p & m & -> & G & L & T & D & I) B. cbn [fst snd]. unfold ObsBuffer_model.decode_payload. replace (len p <? 2) with false by (symmetry; apply Z.ltb_ge; exact L). cbv zeta.
  assert (K : kind_of (message_type p) = KGps) by (cbn [In] in T; unfold kind_of; destruct T as [<-|[<-|[]]]; reflexivity).
  rewrite K, D. rewrite not_tail by (cbn [In] in *; tauto). destruct (week_instant ref _ x G I) as (t & E & V & X). unfold add_gps.
  change (r_time (set_leap (set_time s ref) (Some (utc_offset ref)))) with ref. rewrite E, V. cbn [negb].
  set (s1 := set_leap (set_time s ref) (Some (utc_offset ref))). assert (S : sim s s1) by (unfold sim, s1; cbn; auto 8).
  destruct (is_msm_active t s1) eqn:A; [exists s1; eexists; split; [reflexivity|split; [exact S|apply base_seen]]|].
  destruct B as [B|(B1 & B2)].
  - exfalso. rewrite <- X in B. assert (is_msm_active t s1 = true) by (apply active_iff; assumption). congruence.
  - change (r_last_gps s1) with (r_last_gps s). rewrite fresh_false by (try assumption; lia). exists s1. eexists. split; [reflexivity|split; [exact S|apply base_seen]].
Qed.
Lemma glo_blocked e x (s : rstate) : legacy_glo legacy_dec utc_offset False e x -> glo_blocks x s -> exists s2 o2, decode_payload (fst e) (snd e) s = Some (s2, o2) /\ sim s s2 /\ seen o2 = [].
Proof.
  intros (ref & p & m & -> & G & L & T & D & I & _) B. cbn [fst snd]. unfold ObsBuffer_model.decode_payload. replace (len p <? 2) with false by (symmetry; apply Z.ltb_ge; exact L). cbv zeta.
  assert (K : kind_of (message_type p) = KGlo) by (cbn [In] in T; unfold kind_of; destruct T as [<-|[<-|[]]]; reflexivity).
  rewrite K, D. rewrite not_tail by (cbn [In] in *; tauto). destruct (day_instant ref _ x G I) as (t & E & V & X). unfold add_glo.
  set (s1 := set_leap (set_time s ref) (Some (utc_offset ref))). change (r_leap s1) with (Some (utc_offset ref)). change (r_time s1) with ref. rewrite E, V. cbn [negb].
  assert (S : sim s s1) by (unfold sim, s1; cbn; auto 8).
  assert (N : exists s2 o2, Some (s1, []) = Some (s2, o2) /\ sim s s2 /\ seen (obs := obs) (other_out := other_out) o2 = []) by (exists s1, []; split; [reflexivity|split; [exact S|reflexivity]]).
  destruct (negb (glo_window t s1 (leap_of s1))); [exact N|].
  destruct (is_msm_active t s1) eqn:A; [exact N|]. destruct B as [B|(B1 & B2)].
  - exfalso. rewrite <- X in B. assert (is_msm_active t s1 = true) by (apply active_iff; assumption). congruence.
  - change (r_last_glo s1) with (r_last_glo s). rewrite fresh_false by (try assumption; lia). exact N.
Qed.

(** *** what a step does to the times remembered *)
Lemma send_lasts (s s' : rstate) (o : list out) : send_observations s = Some (s', o) -> r_last_gps s' = r_last_gps s /\ r_last_glo s' = r_last_glo s /\ r_last_msm s' = r_last_msm s.
Proof. unfold send_observations. destruct (_ && _); [|discriminate]. intros E. injection E as <- _. auto. Qed.
Lemma add_obs_lasts m t (s s' : rstate) (o : list out) : add_obs_to_buffer m t s = Some (s', o) -> r_last_gps s' = r_last_gps s /\ r_last_glo s' = r_last_glo s /\ r_last_msm s' = r_last_msm s.
Proof.
  unfold add_obs_to_buffer. match goal with |- match ?r with None => _ | Some _ => _ end = _ -> _ => destruct r as [[s1 o1]|] eqn:E1; [|discriminate] end.
  assert (A : r_last_gps s1 = r_last_gps s /\ r_last_glo s1 = r_last_glo s /\ r_last_msm s1 = r_last_msm s).
  { destruct (_ && _) in E1; [apply send_lasts in E1; exact E1|]. injection E1 as <- _. auto. }
  destruct (fill_legacy _ _) as [b full]. destruct full; [intros E; injection E as <- _; exact A|].
  destruct (l_sync m =? 0); [|intros E; injection E as <- _; exact A].
  match goal with |- context [send_observations ?x] => destruct (send_observations (other_out := other_out) x) as [[s2 o2]|] eqn:E2 end; [|intros E; discriminate E]. apply send_lasts in E2. intros E. injection E as <- _. destruct E2 as (-> & -> & ->). exact A.
Qed.
Lemma no_msm_kind (e : event) : no_msm e -> forall c, kind_of (message_type (snd e)) <> KMsm c.
Proof.
  unfold no_msm, kind_of. intros H c. destruct (_ || _); [discriminate|]. destruct (_ || _); [discriminate|].
  repeat match goal with |- context [(?a <=? ?x) && (?y <=? ?b)] => destruct (Z.leb_spec a x); destruct (Z.leb_spec y b); cbn [andb]; try (exfalso; lia) end; discriminate.
Qed.
Lemma step_lasts e (s s' : rstate) (o : list out) : no_msm e -> decode_payload (fst e) (snd e) s = Some (s', o) ->
  r_last_msm s' = r_last_msm s /\ later (r_last_gps s) (r_last_gps s') /\ later (r_last_glo s) (r_last_glo s').
Proof.
  intros N E. destruct e as [tin p]. cbn [fst snd] in *. unfold ObsBuffer_model.decode_payload in E. pose proof (no_msm_kind _ N) as K. cbn [snd] in K.
  destruct (len p <? 2); [injection E as <- _; auto using later_refl|]. cbv zeta in E. destruct (match tin with None => _ | Some _ => false end) eqn:G; [injection E as <- _; cbn; auto using later_refl|].
  set (s1 := match tin with Some t => set_leap (set_time s t) (Some (utc_offset t)) | None => set_time s (mkt (-1) (-1000)) end) in *.
  replace (match tin with Some t => set_leap (set_time s match tin with Some t0 => t0 | None => mkt (-1) (-1000) end) (Some (utc_offset t)) | None => set_time s match tin with Some t => t | None => mkt (-1) (-1000) end end) with s1 in E by (unfold s1; destruct tin; reflexivity).
  assert (E1 : r_last_gps s1 = r_last_gps s /\ r_last_glo s1 = r_last_glo s /\ r_last_msm s1 = r_last_msm s) by (unfold s1; destruct tin; auto). clearbody s1.
  match type of E with match ?r with None => _ | Some _ => _ end = _ => destruct r as [[s2 o2]|] eqn:E2; [|discriminate] end.
  assert (A : r_last_msm s2 = r_last_msm s1 /\ later (r_last_gps s1) (r_last_gps s2) /\ later (r_last_glo s1) (r_last_glo s2)).
  { assert (Z0 : forall x (y : list out), Some (s1, x) = Some (s2, y) -> r_last_msm s2 = r_last_msm s1 /\ later (r_last_gps s1) (r_last_gps s2) /\ later (r_last_glo s1) (r_last_glo s2))
      by (intros x y Q; injection Q as <- _; auto using later_refl).
    destruct (kind_of (message_type p)) as [| |c|] eqn:Kd.
    - destruct (legacy_dec _ p) as [m|]; [|eapply Z0; exact E2]. unfold add_gps in E2. destruct (compute_gps_message_time _ _) as [t|]; [|discriminate].
      destruct (gps_time_valid t) eqn:V; cbn [negb] in E2; [|eapply Z0; exact E2]. destruct (is_msm_active t s1); [eapply Z0; exact E2|].
      destruct (negb (gps_time_valid (r_last_gps s1)) || (1 <=? gpsdifftime t (r_last_gps s1))) eqn:Fr; [|eapply Z0; exact E2].
      destruct (add_obs_to_buffer _ _ _) as [[s3 o3]|] eqn:E3; [|discriminate]. apply add_obs_lasts in E3. injection E2 as <- _. cbn in E3. destruct E3 as (-> & -> & ->).
      split; [reflexivity|]. split; [apply accepted_later; assumption|apply later_refl].
    - destruct (legacy_dec _ p) as [m|]; [|eapply Z0; exact E2]. destruct (r_leap s1) as [lp|] eqn:Lp; [|eapply Z0; exact E2]. unfold add_glo in E2. destruct (compute_glo_time _ _ _) as [[|] [t|]]; try (eapply Z0; exact E2).
      destruct (gps_time_valid t) eqn:V; cbn [negb] in E2; [|eapply Z0; exact E2]. destruct (negb (glo_window _ _ _)); [eapply Z0; exact E2|]. destruct (is_msm_active t s1); [eapply Z0; exact E2|].
      destruct (negb (gps_time_valid (r_last_glo s1)) || (1 <=? gpsdifftime t (r_last_glo s1))) eqn:Fr; [|eapply Z0; exact E2].
      apply add_obs_lasts in E2. cbn in E2. destruct E2 as (-> & -> & ->). split; [reflexivity|]. split; [apply later_refl|apply accepted_later; assumption].
    - exfalso. exact (K c eq_refl).
    - destruct (other _ p s1) as [a os]. injection E2 as <- _. cbn. auto using later_refl. }
  assert (F : r_last_msm s' = r_last_msm s2 /\ r_last_gps s' = r_last_gps s2 /\ r_last_glo s' = r_last_glo s2).
  { destruct (_ && _) in E; [|injection E as <- _; auto]. destruct (send_observations s2) as [[s3 o3]|] eqn:E3; [|discriminate]. apply send_lasts in E3. injection E as <- _. intuition congruence. }
  destruct F as (-> & -> & ->), A as (A1 & A2 & A3), E1 as (B1 & B2 & B3). rewrite A1, B3, <- B1, <- B2. auto.
Qed.
Lemma run_lasts h : forall (s s' : rstate) (o : list out), Forall no_msm h -> decode_all h s = Some (s', o) ->
  r_last_msm s' = r_last_msm s /\ later (r_last_gps s) (r_last_gps s') /\ later (r_last_glo s) (r_last_glo s').
Proof.
  induction h as [|[tin p] h IH]; intros s s' o N E; cbn [ObsBuffer_model.decode_all] in E; [injection E as <- _; auto using later_refl|]. inversion N as [|? ? N1 N2]; subst.
  destruct (decode_payload tin p s) as [[s1 o1]|] eqn:E1; [|discriminate]. destruct (step_lasts (tin, p) s s1 o1 N1 E1) as (A1 & A2 & A3).
  destruct (decode_all h s1) as [[s2 o2]|] eqn:E2; [|discriminate]. injection E as <- _. destruct (IH s1 s2 o2 N2 E2) as (B1 & B2 & B3).
  split; [congruence|]. split; eapply later_trans; eassumption.
Qed.

Lemma gps_marks e x (s s' : rstate) (o : list out) : legacy_gps legacy_dec utc_offset e x -> decode_payload (fst e) (snd e) s = Some (s', o) -> gps_blocks x s'.
Proof.
  intros H E. assert (H' := H). destruct H as (ref & p & m & -> & G & L & T & D & I). cbn [fst snd] in *. destruct (week_instant ref _ x G I) as (t & Et & V & X).
  assert (Db : gps_blocks x s \/ ~ gps_blocks x s).
  { unfold gps_blocks, msm_blocks. destruct (gps_time_valid (r_last_msm s)), (gps_time_valid (r_last_gps s)), (Z_lt_dec (x - at_ms (r_last_msm s)) 5000), (Z_le_dec x (at_ms (r_last_gps s)));
      try (left; tauto); right; intros [(? & ?)|(? & ?)]; try discriminate; contradiction. }
  destruct Db as [B|B].
  { destruct (gps_blocked _ x s H' B) as (s2 & o2 & E2 & S & _). cbn [fst snd] in E2. rewrite E in E2. injection E2 as <- <-. destruct S as (_ & S1 & _ & S2 & _). unfold gps_blocks, msm_blocks in *. rewrite <- S1, <- S2. exact B. }
  unfold ObsBuffer_model.decode_payload in E. replace (len p <? 2) with false in E by (symmetry; apply Z.ltb_ge; exact L). cbv zeta in E.
  assert (K : kind_of (message_type p) = KGps) by (cbn [In] in T; unfold kind_of; destruct T as [<-|[<-|[]]]; reflexivity).
  rewrite K, D in E. rewrite not_tail in E by (cbn [In] in *; tauto). unfold add_gps in E.
  set (s1 := set_leap (set_time s ref) (Some (utc_offset ref))) in *. change (r_time s1) with ref in E. rewrite Et, V in E. cbn [negb] in E.
  destruct (is_msm_active t s1) eqn:A; [exfalso; apply B; left; apply active_iff in A; [|exact V]; rewrite X in A; exact A|].
  destruct (negb (gps_time_valid (r_last_gps s1)) || (1 <=? gpsdifftime t (r_last_gps s1))) eqn:Fr.
  - destruct (add_obs_to_buffer _ _ _) as [[s3 o3]|] eqn:E3; [|discriminate]. apply add_obs_lasts in E3. injection E as <- _. cbn in E3. right. destruct E3 as (-> & _). split; [exact V|lia].
  - exfalso. apply B. right. change (r_last_gps s1) with (r_last_gps s) in Fr. apply orb_false_iff in Fr. destruct Fr as [F1 F2]. apply negb_false_iff in F1. split; [exact F1|].
    apply Z.leb_gt in F2. rewrite diff_ms in F2 by assumption. lia.
Qed.
Lemma glo_marks e x (s s' : rstate) (o : list out) : legacy_glo legacy_dec utc_offset True e x -> decode_payload (fst e) (snd e) s = Some (s', o) -> glo_blocks x s'.
Proof.
  intros H E. assert (H' : legacy_glo legacy_dec utc_offset False e x) by (destruct H as (ref & p & m & A1 & A2 & A3 & A4 & A5 & A6 & A7); exists ref, p, m; tauto).
  destruct H as (ref & p & m & -> & G & L & T & D & I & Pl). cbn [fst snd] in *. destruct (day_instant ref _ x G I) as (t & Et & V & X).
  assert (Db : glo_blocks x s \/ ~ glo_blocks x s).
  { unfold glo_blocks, msm_blocks. destruct (gps_time_valid (r_last_msm s)), (gps_time_valid (r_last_glo s)), (Z_lt_dec (x - at_ms (r_last_msm s)) 5000), (Z_le_dec x (at_ms (r_last_glo s)));
      try (left; tauto); right; intros [(? & ?)|(? & ?)]; try discriminate; contradiction. }
  destruct Db as [B|B].
  { destruct (glo_blocked _ x s H' B) as (s2 & o2 & E2 & S & _). cbn [fst snd] in E2. rewrite E in E2. injection E2 as <- <-. destruct S as (_ & _ & S1 & S2 & _). unfold glo_blocks, msm_blocks in *. rewrite <- S1, <- S2. exact B. }
  unfold ObsBuffer_model.decode_payload in E. replace (len p <? 2) with false in E by (symmetry; apply Z.ltb_ge; exact L). cbv zeta in E.
  assert (K : kind_of (message_type p) = KGlo) by (cbn [In] in T; unfold kind_of; destruct T as [<-|[<-|[]]]; reflexivity).
  rewrite K, D in E. rewrite not_tail in E by (cbn [In] in *; tauto). unfold add_glo in E.
  set (s1 := set_leap (set_time s ref) (Some (utc_offset ref))) in *. change (r_leap s1) with (Some (utc_offset ref)) in E. change (r_time s1) with ref in E. rewrite Et, V in E. cbn [negb] in E.
  change (leap_of s1) with (utc_offset ref) in E. rewrite (window_ok t s1 ref x) in E by (try reflexivity; tauto). cbn [negb] in E.
  destruct (is_msm_active t s1) eqn:A; [exfalso; apply B; left; apply active_iff in A; [|exact V]; rewrite X in A; exact A|].
  destruct (negb (gps_time_valid (r_last_glo s1)) || (1 <=? gpsdifftime t (r_last_glo s1))) eqn:Fr.
  - destruct (add_obs_to_buffer _ _ _) as [[s3 o3]|] eqn:E3; [|discriminate]. apply add_obs_lasts in E3. injection E as <- _. cbn in E3. right. destruct E3 as (_ & -> & _). split; [exact V|lia].
  - exfalso. apply B. right. change (r_last_glo s1) with (r_last_glo s) in Fr. apply orb_false_iff in Fr. destruct Fr as [F1 F2]. apply negb_false_iff in F1. split; [exact F1|].
    apply Z.leb_gt in F2. rewrite diff_ms in F2 by assumption. lia.
Qed.
Lemma add_msm_lasts c m (s s' : rstate) (o : list out) t w : msm_time (other_out := other_out) c (m_tow_ms m) s = Some (Some t, w) -> tow t <> 0 -> add_msm c m s = Some (s', o) ->
  r_last_gps s' = t /\ r_last_glo s' = t /\ r_last_msm s' = t.
Proof.
  intros T N E. unfold add_msm in E. rewrite T in E. replace (tow t =? 0) with false in E by (symmetry; apply Z.eqb_neq; exact N). rewrite andb_false_r in E.
  set (s1 := if negb (is_msm_active t s) && (0 <? len (r_buf s)) then set_buf s 0 0 [] else s) in *. clearbody s1.
  set (s2 := set_last s1 t t t) in *.
  match type of E with match ?r with None => _ | Some _ => _ end = _ => destruct r as [[s3 o3]|] eqn:E3; [|discriminate] end.
  assert (A : r_last_gps s3 = t /\ r_last_glo s3 = t /\ r_last_msm s3 = t).
  { destruct (_ && _) in E3; [|injection E3 as <- _; auto]. destruct (send_observations s2) as [[s4 o4]|] eqn:E4; [|discriminate]. apply send_lasts in E4. injection E3 as <- _.
    destruct E4 as (-> & -> & ->). auto. }
  destruct (fill_msm _ _) as [b full]. injection E as <- _. exact A.
Qed.
Lemma msm_marks e x (s s' : rstate) (o : list out) : msm_at msm_dec utc_offset e x -> decode_payload (fst e) (snd e) s = Some (s', o) ->
  exists t, gps_time_valid t = true /\ at_ms t = x /\ r_last_gps s' = t /\ r_last_glo s' = t /\ r_last_msm s' = t.
Proof.
  intros (ref & p & m & -> & G & L & D & N & C) E. cbn [fst snd] in *.
  set (s1 := set_leap (set_time s ref) (Some (utc_offset ref))).
  assert (W : exists c t w, kind_of (message_type p) = KMsm c /\ msm_time (other_out := other_out) c (m_tow_ms m) s1 = Some (Some t, w) /\ gps_time_valid t = true /\ at_ms t = x).
  { destruct C as [(T & I)|[(T & R & I)|(T & I & Pl)]].
    - destruct (week_instant ref _ x G I) as (t & Et & V & X).
      assert (K : kind_of (message_type p) = KMsm GPS \/ kind_of (message_type p) = KMsm OTHER).
      { cbn [In] in T. unfold kind_of. repeat (destruct T as [<-|T]; [first [left; reflexivity|right; reflexivity]|]). destruct T. }
      destruct K as [K|K]; eexists; exists t; eexists; (split; [exact K|]); unfold msm_time; change (r_time s1) with ref; rewrite Et, V; auto.
    - destruct (week_instant ref _ x G I) as (t & Et & V & X).
      assert (K : kind_of (message_type p) = KMsm BDS) by (cbn [In] in T; unfold kind_of; repeat (destruct T as [<-|T]; [reflexivity|]); destruct T).
      exists BDS, t. eexists. split; [exact K|]. unfold msm_time. change (r_time s1) with ref.
      assert (Eb : beidou_tow_to_gps_tow (m_tow_ms m) = (m_tow_ms m + 14000) mod 604800000) by (apply bds_tow; exact R). rewrite Eb, Et, V. auto.
    - destruct (day_instant ref _ x G I) as (t & Et & V & X).
      assert (K : kind_of (message_type p) = KMsm GLO) by (cbn [In] in T; unfold kind_of; repeat (destruct T as [<-|T]; [reflexivity|]); destruct T).
      exists GLO, t. eexists. split; [exact K|]. unfold msm_time. change (r_time s1) with ref. change (r_leap s1) with (Some (utc_offset ref)). change (leap_of s1) with (utc_offset ref).
      rewrite Et. cbn [snd]. rewrite V. cbn [negb]. rewrite (window_ok t s1 ref x) by (try reflexivity; assumption). auto. }
  destruct W as (c & t & w & K & Tm & V & X). exists t. split; [exact V|]. split; [exact X|].
  unfold ObsBuffer_model.decode_payload in E. replace (len p <? 2) with false in E by (symmetry; apply Z.ltb_ge; exact L). cbv zeta in E. rewrite K, D in E. fold s1 in E.
  destruct (add_msm c m s1) as [[s2 o2]|] eqn:E2; [|discriminate]. pose proof (add_msm_lasts c m s1 s2 o2 t w Tm (tow_of_ms t x V X N) E2) as A.
  destruct (_ && _) in E; [|injection E as <- _; exact A]. destruct (send_observations s2) as [[s3 o3]|] eqn:E3; [|discriminate]. apply send_lasts in E3. injection E as <- _. destruct E3 as (-> & -> & ->). exact A.
Qed.

(** *** histories *)
Lemma mid_state h1 e h2 s s' (o : list out) : decode_all (h1 ++ e :: h2) s = Some (s', o) ->
  exists s1 o1 s2 o2 o3, decode_all h1 s = Some (s1, o1) /\ decode_payload (fst e) (snd e) s1 = Some (s2, o2) /\ decode_all h2 s2 = Some (s', o3).
Proof.
  rewrite decode_all_app. destruct (decode_all h1 s) as [[s1 o1]|] eqn:E1; [|discriminate]. destruct e as [tin p]. cbn [ObsBuffer_model.decode_all fst snd].
  destruct (decode_payload tin p s1) as [[s2 o2]|] eqn:E2; [|discriminate]. destruct (decode_all h2 s2) as [[s3 o3]|] eqn:E3; [|discriminate]. intros E. injection E as <- _.
  exists s1, o1, s2, o2, o3. auto.
Qed.
Lemma after_msm h1 e h2 x s s' (o : list out) : msm_at msm_dec utc_offset e x -> Forall no_msm h2 -> decode_all (h1 ++ e :: h2) s = Some (s', o) ->
  exists t g, gps_time_valid t = true /\ at_ms t = x /\ r_last_msm s' = t /\ later t g /\ r_last_gps s' = g.
Proof.
  intros M N E. destruct (mid_state h1 e h2 s s' o E) as (s1 & o1 & s2 & o2 & o3 & _ & E2 & E3). destruct (msm_marks e x s1 s2 o2 M E2) as (t & V & X & Lg & _ & Lm).
  destruct (run_lasts h2 s2 s' o3 N E3) as (A & B & _). exists t, (r_last_gps s'). split; [exact V|]. split; [exact X|]. split; [congruence|]. split; [rewrite <- Lg; exact B|reflexivity].
Qed.

(** the time of the last accepted legacy GPS message, bounded by the times of the messages *)
Lemma step_bound e x (s s' : rstate) (o : list out) : no_msm e -> (is_legacy_gps_number e -> exists y, legacy_gps legacy_dec utc_offset e y /\ y < x) -> at_ms (r_last_gps s) < x ->
  decode_payload (fst e) (snd e) s = Some (s', o) -> at_ms (r_last_gps s') < x.
Proof.
  intros N H B E. destruct (step_lasts e s s' o N E) as (_ & [A|(A1 & A2)] & _); [rewrite <- A; exact B|].
  destruct e as [tin p]. cbn [fst snd] in E. unfold ObsBuffer_model.decode_payload in E.
  destruct (len p <? 2); [injection E as <- _; exact B|]. cbv zeta in E. destruct (match tin with None => _ | Some _ => false end) eqn:G; [injection E as <- _; exact B|].
  match type of E with match ?r with None => _ | Some _ => _ end = _ => destruct r as [[s2 o2]|] eqn:E2; [|discriminate] end.
  assert (F : r_last_gps s' = r_last_gps s2).
  { destruct (_ && _) in E; [|injection E as <- _; auto]. destruct (send_observations s2) as [[s3 o3]|] eqn:E3; [|discriminate]. apply send_lasts in E3. injection E as <- _. intuition congruence. }
  rewrite F. clear E F A1 A2. destruct (kind_of (message_type p)) as [| |c|] eqn:Kd.
  - destruct (solved_only tin _ G) as (ref & ->); [rewrite Kd; discriminate|]. assert (T : is_legacy_gps_number (Some ref, p)).
    { unfold is_legacy_gps_number. cbn [snd]. unfold kind_of in Kd. destruct (Z.eqb_spec (message_type p) 1002) as [->|]; [left; reflexivity|]. destruct (Z.eqb_spec (message_type p) 1004) as [->|]; [right; left; reflexivity|].
      cbn [orb] in Kd. destruct (_ || _); [discriminate|]. repeat (destruct (_ && _); [discriminate|]). discriminate. }
    destruct (H T) as (y & (r' & p' & m & Q & Gt & L & _ & D & I) & Ly). injection Q as <- <-. destruct (week_instant ref _ y Gt I) as (t & Et & V & X).
    rewrite D in E2. unfold add_gps in E2. set (s1 := set_leap (set_time s ref) (Some (utc_offset ref))) in *. change (r_time s1) with ref in E2. rewrite Et in E2.
    destruct (negb (gps_time_valid t)); [injection E2 as <- _; exact B|]. destruct (is_msm_active t s1); [injection E2 as <- _; exact B|].
    destruct (_ || _) in E2; [|injection E2 as <- _; exact B]. destruct (add_obs_to_buffer _ _ _) as [[s3 o3]|] eqn:E3; [|discriminate]. apply add_obs_lasts in E3. injection E2 as <- _. cbn in E3. destruct E3 as (-> & _). lia.
  - destruct (legacy_dec _ p) as [m|]; [|injection E2 as <- _; destruct tin; exact B].
    set (s1 := match tin with Some t => set_leap _ _ | None => _ end) in E2. assert (B1 : at_ms (r_last_gps s1) < x) by (unfold s1; destruct tin; exact B). clearbody s1.
    destruct (r_leap s1); [|injection E2 as <- _; exact B1]. unfold add_glo in E2. destruct (compute_glo_time _ _ _) as [[|] [t|]]; try (injection E2 as <- _; exact B1).
    destruct (negb (gps_time_valid t)); [injection E2 as <- _; exact B1|]. destruct (negb (glo_window _ _ _)); [injection E2 as <- _; exact B1|]. destruct (is_msm_active t s1); [injection E2 as <- _; exact B1|].
    destruct (_ || _) in E2; [|injection E2 as <- _; exact B1]. apply add_obs_lasts in E2. cbn in E2. destruct E2 as (-> & _). exact B1.
  - exfalso. exact (no_msm_kind _ N c Kd).
  - destruct (other _ p _) as [a os]. injection E2 as <- _. destruct tin; exact B.
Qed.
Lemma run_bound h x : forall (s s' : rstate) (o : list out), Forall no_msm h -> (forall e, In e h -> is_legacy_gps_number e -> exists y, legacy_gps legacy_dec utc_offset e y /\ y < x) ->
  at_ms (r_last_gps s) < x -> decode_all h s = Some (s', o) -> at_ms (r_last_gps s') < x.
Proof.
  induction h as [|[tin p] h IH]; intros s s' o N H B E; cbn [ObsBuffer_model.decode_all] in E; [injection E as <- _; exact B|]. inversion N as [|? ? N1 N2]; subst.
  destruct (decode_payload tin p s) as [[s1 o1]|] eqn:E1; [|discriminate]. destruct (decode_all h s1) as [[s2 o2]|] eqn:E2; [|discriminate]. injection E as <- _.
  apply (IH s1 s2 o2); [exact N2|intros e I; apply H; right; exact I| |exact E2]. apply (step_bound (tin, p) x s s1 o1); [exact N1|apply H; left; reflexivity|exact B|exact E1].
Qed.
End P.
