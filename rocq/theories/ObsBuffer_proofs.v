From Verif Require Import Base Bits_model Time_model Time_proofs ObsBuffer_model ObsBuffer_spec.

Section Proofs.
Context {obs other_out aux : Type}.
Notation out := (out obs other_out).
Notation rstate := (rstate obs aux).

Lemma total_spec n : 0 <= n <= 210 -> 1 <= total_messages n <= 15 /\ 14 * (total_messages n - 1) <= n <= 14 * total_messages n /\ (0 < n -> 14 * (total_messages n - 1) < n).
Proof.
  intros H. unfold total_messages, OBS_PER_MSG. destruct (Z.ltb_spec 0 n).
  - pose proof (Z.div_mod (n - 1) 14 ltac:(lia)) as D. pose proof (Z.mod_pos_bound (n - 1) 14 ltac:(lia)) as B.
    assert (0 <= (n - 1) / 14 <= 14) by lia. rewrite Z.mod_small by lia. lia.
  - rewrite Z.mod_small by lia. lia.
Qed.

(** *** send_observations *)
Fixpoint chunks (k : nat) (rest : list obs) : list (list obs) :=
  match k with O => [] | S k => take (Z.min 14 (len rest)) rest :: chunks k (drop (Z.min 14 (len rest)) rest) end.
Lemma chunks_length k : forall rest, length (chunks k rest) = k.
Proof. induction k as [|k IH]; intros rest; [reflexivity|]. cbn [chunks length]. rewrite IH. reflexivity. Qed.
Lemma chunks_concat k : forall rest, len rest <= 14 * Z.of_nat k -> concat (chunks k rest) = rest.
Proof.
  induction k as [|k IH]; intros rest H.
  - destruct rest; [reflexivity|]. unfold len in H. cbn in H. lia.
  - cbn [chunks concat]. rewrite IH; [apply take_drop|]. pose proof (len_nonneg rest). rewrite len_drop. lia.
Qed.
Lemma chunks_nth k : forall rest i p, nth_error (chunks k rest) i = Some p -> len p = Z.max 0 (Z.min 14 (len rest - 14 * Z.of_nat i)).
Proof.
  induction k as [|k IH]; intros rest i p H; [destruct i; discriminate|]. cbn [chunks] in H. pose proof (len_nonneg rest). destruct i as [|i].
  - cbn in H. injection H as <-. rewrite len_take. lia.
  - cbn [nth_error] in H. rewrite (IH _ _ _ H). rewrite len_drop. lia.
Qed.
Lemma send_loop_nth (s : rstate) total k : forall i rest j m, nth_error (send_loop (other_out := other_out) s total k i rest) j = Some m <->
  exists p, nth_error (chunks k rest) j = Some p /\ m = OObs (r_sender s) (r_obs_wn s) (r_obs_tow s) ((Z.shiftl total 4 + (i + Z.of_nat j)) mod 256) p.
Proof.
  induction k as [|k IH]; intros i rest j m.
  - cbn [send_loop chunks]. destruct j; split; try discriminate; intros (p & H & _); discriminate.
  - cbn [send_loop chunks]. destruct j as [|j]; cbn [nth_error].
    + unfold OBS_PER_MSG. split.
      * intros H. injection H as <-. eexists. split; [reflexivity|]. repeat f_equal; lia.
      * intros (p & H & ->). injection H as <-. repeat f_equal; lia.
    + rewrite IH. unfold OBS_PER_MSG. replace (i + 1 + Z.of_nat j) with (i + Z.of_nat (S j)) by lia. reflexivity.
Qed.
Lemma send_loop_carried (s : rstate) total k : forall i rest, len rest <= 14 * Z.of_nat k -> carried (send_loop (other_out := other_out) s total k i rest) = rest.
Proof.
  induction k as [|k IH]; intros i rest H.
  - destruct rest; [reflexivity|]. unfold len in H. cbn in H. lia.
  - unfold carried in *. cbn [send_loop flat_map]. rewrite IH; [apply take_drop|]. pose proof (len_nonneg rest). rewrite len_drop. unfold OBS_PER_MSG. lia.
Qed.
Lemma send_loop_heads (s : rstate) total k : forall i rest m, In m (send_loop (other_out := other_out) s total k i rest) ->
  exists n os, m = OObs (r_sender s) (r_obs_wn s) (r_obs_tow s) n os /\ incl os rest.
Proof.
  assert (IT : forall n (l : list obs), incl (take n l) l) by (intros n l x Hx; rewrite <- (take_drop n l); apply in_or_app; left; exact Hx).
  assert (ID : forall n (l : list obs), incl (drop n l) l) by (intros n l x Hx; rewrite <- (take_drop n l); apply in_or_app; right; exact Hx).
  induction k as [|k IH]; intros i rest m H; [destruct H|]. cbn [send_loop In] in H. destruct H as [<-|H].
  - do 2 eexists. split; [reflexivity|]. apply IT.
  - destruct (IH _ _ _ H) as (n & os & -> & I). exists n, os. split; [reflexivity|]. intros x Hx. eapply ID. apply I. exact Hx.
Qed.
Lemma send_ok (s : rstate) : len (r_buf s) <= 210 -> exists o, send_observations (other_out := other_out) s = Some (set_buf s 0 0 [], o) /\
  epoch_messages (r_sender s) (r_obs_wn s) (r_obs_tow s) (r_buf s) o /\ carried o = r_buf s /\
  (forall m, In m o -> exists n os, m = OObs (r_sender s) (r_obs_wn s) (r_obs_tow s) n os /\ incl os (r_buf s)).
Proof.
  intros H. pose proof (len_nonneg (r_buf s)) as H0. destruct (total_spec (len (r_buf s)) ltac:(lia)) as (T1 & T2 & T3).
  unfold send_observations, MAX_OBS_PER_EPOCH. destruct (Z.leb_spec (len (r_buf s)) 210); [|lia]. destruct (Z.leb_spec (total_messages (len (r_buf s))) 15); [|lia].
  cbn [andb]. set (total := total_messages (len (r_buf s))) in *. eexists. split; [reflexivity|].
  assert (L : len (chunks (Z.to_nat total) (r_buf s)) = total) by (unfold len; rewrite chunks_length; lia).
  split; [|split].
  - exists (chunks (Z.to_nat total) (r_buf s)). rewrite L. split; [apply chunks_concat; lia|]. split; [lia|]. split; [|split].
    + intros i p Hp Hi. rewrite (chunks_nth _ _ _ _ Hp). lia.
    + intros p Hp. rewrite chunks_length in Hp. pose proof (chunks_nth _ _ _ _ Hp) as Q. split; [lia|]. intros ->. rewrite len_nil in Q.
      apply len_zero_nil. lia.
    + intros i m. rewrite send_loop_nth. split; intros (p & Hp & ->); exists p; (split; [exact Hp|]);
        (assert (Hi : (i < length (chunks (Z.to_nat total) (r_buf s)))%nat) by (apply nth_error_Some; congruence)); rewrite chunks_length in Hi;
        f_equal; rewrite Z.shiftl_mul_pow2 by lia; change (2 ^ 4) with 16; [|symmetry]; rewrite Z.mod_small by lia; ring.
  - apply send_loop_carried. lia.
  - intros m. apply send_loop_heads.
Qed.

(** *** filling *)
Lemma fill_legacy_spec (cands : list (option obs)) : forall buf b full, len buf <= 210 -> fill_legacy buf cands = (b, full) ->
  len b <= 210 /\ exists c1 c2, somes cands = c1 ++ c2 /\ b = buf ++ c1 /\ (full = false -> c2 = []) /\ (full = true -> len b = 210).
Proof.
  induction cands as [|c cs IH]; intros buf b full H E; cbn [fill_legacy] in E.
  - injection E as <- <-. split; [exact H|]. exists [], []. cbn. rewrite app_nil_r. repeat split; try discriminate; auto.
  - unfold MAX_OBS_PER_EPOCH in E. destruct (Z.leb_spec 210 (len buf)).
    + injection E as <- <-. split; [exact H|]. exists [], (somes (c :: cs)). rewrite app_nil_r. split; [reflexivity|]. split; [reflexivity|]. split; [discriminate|]. lia.
    + destruct c as [o|].
      * destruct (IH (buf ++ [o]) b full ltac:(rewrite len_app, len_cons, len_nil; lia) E) as (L & c1 & c2 & S & -> & F1 & F2). split; [exact L|].
        exists (o :: c1), c2. cbn [somes flat_map app]. unfold somes in S. rewrite S. split; [reflexivity|]. split; [rewrite <- app_assoc; reflexivity|]. split; [exact F1|exact F2].
      * destruct (IH buf b full ltac:(lia) E) as (L & c1 & c2 & S & -> & F1 & F2). split; [exact L|]. exists c1, c2. split; [exact S|]. auto.
Qed.
Lemma fill_msm_spec (cands : list obs) : forall buf b full, len buf <= 210 -> fill_msm buf cands = (b, full) ->
  len b <= 210 /\ exists c1 c2, cands = c1 ++ c2 /\ b = buf ++ c1 /\ (full = false -> c2 = []) /\ (full = true -> len b = 210).
Proof.
  induction cands as [|o cs IH]; intros buf b full H E; cbn [fill_msm] in E.
  - injection E as <- <-. split; [exact H|]. exists [], []. repeat split; try discriminate; auto. rewrite app_nil_r. reflexivity.
  - unfold MAX_OBS_PER_EPOCH in E. destruct (Z.leb_spec 210 (len buf)).
    + injection E as <- <-. split; [exact H|]. exists [], (o :: cs). rewrite app_nil_r. split; [reflexivity|]. split; [reflexivity|]. split; [discriminate|]. lia.
    + destruct (IH (buf ++ [o]) b full ltac:(rewrite len_app, len_cons, len_nil; lia) E) as (L & c1 & c2 & S & -> & F1 & F2). split; [exact L|].
      exists (o :: c1), c2. rewrite S. split; [reflexivity|]. split; [rewrite <- app_assoc; reflexivity|]. split; [exact F1|exact F2].
Qed.

(** *** the invariant *)
Definition good (P : Z -> Z -> obs -> Prop) (s : rstate) : Prop := len (r_buf s) <= 210 /\ Forall (P (r_obs_tow s) (r_sender s)) (r_buf s).
Definition good_out (P : Z -> Z -> obs -> Prop) (l : list out) : Prop :=
  Forall (fun m => match m with OObs sd w tw n os => Forall (P tw sd) os | _ => True end) l.
Lemma good_out_app P a b : good_out P a -> good_out P b -> good_out P (a ++ b).
Proof. intros. apply Forall_app. split; assumption. Qed.
Lemma carried_app (a b : list out) : carried (a ++ b) = carried a ++ carried b.
Proof. apply flat_map_app. Qed.
Lemma send_good P (s : rstate) : good P s -> exists o, send_observations (other_out := other_out) s = Some (set_buf s 0 0 [], o) /\ good_out P o /\ carried o = r_buf s.
Proof.
  intros [H F]. destruct (send_ok s H) as (o & E & _ & C & I). exists o. split; [exact E|]. split; [|exact C].
  apply Forall_forall. intros m Hm. destruct (I m Hm) as (n & os & -> & Hi). apply Forall_forall. intros x Hx. rewrite Forall_forall in F. apply F. apply Hi. exact Hx.
Qed.
(** [took s c s' o]: the step from s to s' with outputs o keeps everything buffered and appends c *)
Definition took (kept : list obs) (c : list obs) (s' : rstate) (o : list out) : Prop :=
  exists c1 c2, c = c1 ++ c2 /\ carried o ++ r_buf s' = kept ++ c1 /\ (c2 <> [] -> In OFull o).
Lemma took_nothing (s : rstate) o : carried o = [] -> took (r_buf s) [] s o.
Proof. intros H. exists [], []. split; [reflexivity|]. rewrite H, app_nil_r. split; [reflexivity|congruence]. Qed.

Lemma add_obs_ok P m t (s : rstate) : good P s -> Forall (P (tow t) (sender_of (l_stn m))) (somes (l_cands m)) ->
  exists s' o, add_obs_to_buffer (other_out := other_out) m t s = Some (s', o) /\ good P s' /\ good_out P o /\ took (r_buf s) (somes (l_cands m)) s' o.
Proof.
  intros G F. unfold add_obs_to_buffer.
  set (fl := negb (len (r_buf s) =? 0) && (negb (r_obs_tow s =? tow t) || negb (r_sender s =? sender_of (l_stn m)))).
  assert (exists s1 o1, (if fl then send_observations s else Some (s, [])) = Some (s1, o1) /\ good_out P o1 /\ carried o1 ++ r_buf s1 = r_buf s /\
    len (r_buf s1) <= 210 /\ Forall (P (tow t) (sender_of (l_stn m))) (r_buf s1)) as (s1 & o1 & -> & G1 & C1 & L1 & F1).
  { destruct fl eqn:Ef.
    - destruct (send_good P s G) as (o & E & Go & C). exists (set_buf s 0 0 []), o. split; [exact E|]. split; [exact Go|]. cbn [r_buf set_buf]. rewrite app_nil_r.
      split; [exact C|]. split; [cbn; lia|constructor].
    - exists s, []. split; [reflexivity|]. split; [constructor|]. split; [reflexivity|]. destruct G as [G1 G2]. split; [exact G1|].
      unfold fl in Ef. apply andb_false_iff in Ef. destruct Ef as [Ef|Ef].
      + apply negb_false_iff, Z.eqb_eq, len_zero_nil in Ef. rewrite Ef. constructor.
      + apply orb_false_iff in Ef. destruct Ef as [E1 E2]. apply negb_false_iff, Z.eqb_eq in E1, E2. rewrite <- E1, <- E2. exact G2. }
  change (r_buf (set_sender (set_buf s1 (wn t) (tow t) (r_buf s1)) (sender_of (l_stn m)))) with (r_buf s1).
  destruct (fill_legacy (r_buf s1) (l_cands m)) as [b full] eqn:Ef. destruct (fill_legacy_spec _ _ _ _ L1 Ef) as (Lb & c1 & c2 & S & -> & N1 & N2).
  set (s2 := set_buf (set_sender (set_buf s1 (wn t) (tow t) (r_buf s1)) (sender_of (l_stn m))) (wn t) (tow t) (r_buf s1 ++ c1)).
  assert (G2 : good P s2).
  { split; [exact Lb|]. cbn. apply Forall_app. split; [exact F1|]. rewrite S in F. apply Forall_app in F. tauto. }
  destruct full.
  - exists s2, (o1 ++ [OFull]). split; [reflexivity|]. split; [exact G2|]. split; [apply good_out_app; [exact G1|repeat constructor]|].
    exists c1, c2. split; [exact S|]. rewrite carried_app. cbn. rewrite app_nil_r. split; [rewrite app_assoc, C1; reflexivity|]. intros _. apply in_or_app. right. left. reflexivity.
  - specialize (N1 eq_refl). subst c2. rewrite app_nil_r in S. destruct (l_sync m =? 0).
    + destruct (send_good P s2 G2) as (o2 & E2 & Go2 & C2). rewrite E2. exists (set_buf s2 0 0 []), (o1 ++ o2). split; [reflexivity|]. split; [split; [cbn; lia|constructor]|].
      split; [apply good_out_app; assumption|]. exists c1, []. split; [rewrite app_nil_r; exact S|]. rewrite carried_app, C2. cbn. rewrite app_nil_r. split; [rewrite app_assoc, C1; reflexivity|congruence].
    + exists s2, o1. split; [reflexivity|]. split; [exact G2|]. split; [exact G1|]. exists c1, []. split; [rewrite app_nil_r; exact S|]. cbn. split; [rewrite app_assoc, C1; reflexivity|congruence].
Qed.
Lemma base_good P t rover : good_out P (base_sanity (obs := obs) (other_out := other_out) t rover) /\ carried (base_sanity (obs := obs) (other_out := other_out) t rover) = [].
Proof. unfold base_sanity. destruct (_ && _); split; try reflexivity; repeat constructor. Qed.
(** results of a whole message: either ignored or taken *)
Definition stepped (P : Z -> Z -> obs -> Prop) (s s' : rstate) (o : list out) (c : list obs) (dropped : bool) : Prop :=
  good P s' /\ good_out P o /\ (took (r_buf s) [] s' o \/ took (if dropped then [] else r_buf s) c s' o).
Lemma ignored P s s' o c : good P s -> r_buf s' = r_buf s -> r_obs_tow s' = r_obs_tow s -> r_sender s' = r_sender s -> good_out P o -> carried o = [] -> stepped P s s' o c false.
Proof.
  intros [G1 G2] B T S Go C. split; [split; [rewrite B; exact G1|rewrite B, T, S; exact G2]|]. split; [exact Go|]. left.
  exists [], []. split; [reflexivity|]. rewrite C, B, app_nil_r. split; [reflexivity|congruence].
Qed.
Lemma took_pre (kept c : list obs) (s' : rstate) (o o' : list out) : carried o = [] -> took kept c s' o' -> took kept c s' (o ++ o').
Proof. intros C (c1 & c2 & S & E & N). exists c1, c2. split; [exact S|]. rewrite carried_app, C. split; [exact E|]. intros H. apply in_or_app. right. auto. Qed.

Lemma add_gps_ok P m (s : rstate) : good P s -> compute_gps_message_time (l_tow_ms m) (r_time s) <> None ->
  (forall t, compute_gps_message_time (l_tow_ms m) (r_time s) = Some t -> Forall (P (tow t) (sender_of (l_stn m))) (somes (l_cands m))) ->
  exists s' o, add_gps (other_out := other_out) m s = Some (s', o) /\ stepped P s s' o (somes (l_cands m)) false.
Proof.
  intros G N F. unfold add_gps. destruct (compute_gps_message_time (l_tow_ms m) (r_time s)) as [t|] eqn:E; [|congruence]. specialize (F t eq_refl).
  destruct (base_good P t (r_time s)) as [B1 B2].
  assert (I : stepped P s s (base_sanity t (r_time s)) (somes (l_cands m)) false) by (apply ignored; auto).
  destruct (negb (gps_time_valid t)); [eauto|]. destruct (is_msm_active t s); [eauto|]. destruct (_ || _); [|eauto].
  destruct (add_obs_ok P m t (set_last s t (r_last_glo s) (r_last_msm s))) as (s' & o & E' & G' & Go & T); [exact G|exact F|]. rewrite E'.
  do 2 eexists. split; [reflexivity|]. split; [exact G'|]. split; [apply good_out_app; assumption|]. right. apply took_pre; assumption.
Qed.
Lemma add_glo_ok P m (s : rstate) : good P s ->
  (forall t, compute_glo_time (l_tow_ms m) (r_time s) (r_leap s) = (true, Some t) -> Forall (P (tow t) (sender_of (l_stn m))) (somes (l_cands m))) ->
  exists s' o, add_glo (other_out := other_out) m s = Some (s', o) /\ stepped P s s' o (somes (l_cands m)) false.
Proof.
  intros G F. unfold add_glo. assert (I : stepped P s s [] (somes (l_cands m)) false) by (apply ignored; auto; constructor).
  destruct (compute_glo_time (l_tow_ms m) (r_time s) (r_leap s)) as [[|] [t|]] eqn:E; eauto. specialize (F t eq_refl).
  destruct (negb (gps_time_valid t)); [eauto|]. destruct (negb (glo_window _ _ _)); [eauto|]. destruct (is_msm_active t s); [eauto|]. destruct (_ || _); [|eauto].
  destruct (add_obs_ok P m t (set_last s (r_last_gps s) t (r_last_msm s))) as (s' & o & E' & G' & Go & T); [exact G|exact F|]. rewrite E'.
  do 2 eexists. split; [reflexivity|]. split; [exact G'|]. split; [assumption|]. right. assumption.
Qed.
(** when an MSM message clears what is buffered *)
Definition msm_restart (t : gtime) (s : rstate) : bool := negb (is_msm_active t s) && (0 <? len (r_buf s)).
Lemma add_msm_ok P c m (s : rstate) : good P s -> msm_time (obs := obs) (other_out := other_out) c (m_tow_ms m) s <> None ->
  (forall t o, msm_time (other_out := other_out) c (m_tow_ms m) s = Some (Some t, o) -> Forall (P (tow t) (sender_of (m_stn m))) (m_cands m)) ->
  exists s' o d, add_msm (other_out := other_out) c m s = Some (s', o) /\ stepped P s s' o (m_cands m) d /\
    (d = true -> exists t o, msm_time (other_out := other_out) c (m_tow_ms m) s = Some (Some t, o) /\ msm_restart t s = true) /\
    (forall t o0, msm_time (other_out := other_out) c (m_tow_ms m) s = Some (Some t, o0) -> gps_time_valid (r_last_gps s) = true \/ tow t <> 0 -> msm_restart t s = false ->
       took (r_buf s) (m_cands m) s' o).
Proof.
  intros G N F. unfold add_msm. destruct (msm_time c (m_tow_ms m) s) as [[[t|] o0]|] eqn:E; [| |congruence].
  - specialize (F t o0 eq_refl). assert (Bo : good_out P o0 /\ carried o0 = []).
    { unfold msm_time in E. destruct c.
      1,3,4: destruct (compute_gps_message_time _ _); [|discriminate]; destruct (gps_time_valid _); [|discriminate]; injection E as <- <-; apply base_good.
      destruct (snd _) as [g|]; [|discriminate]. destruct (negb _); [discriminate|]. destruct (glo_window _ _ _); [|discriminate]. injection E as <- <-. split; [constructor|reflexivity]. }
    destruct Bo as [B1 B2]. destruct (negb (gps_time_valid (r_last_gps s)) && (tow t =? 0)) eqn:Z0.
    { exists s, o0, false. split; [reflexivity|]. split; [apply ignored; auto|]. split; [discriminate|]. intros t' o' Q [H|H] _; injection Q as <- <-.
      - rewrite H in Z0. discriminate. - apply andb_true_iff in Z0. destruct Z0 as [_ Z0]. apply Z.eqb_eq in Z0. contradiction. }
    fold (msm_restart t s). set (d := msm_restart t s). set (s0 := if d then set_buf s 0 0 [] else s).
    assert (G0 : good P s0) by (unfold s0; destruct d; [split; [cbn; lia|constructor]|exact G]).
    assert (B0 : r_buf s0 = if d then [] else r_buf s) by (unfold s0; destruct d; reflexivity).
    set (s1 := set_last s0 t t t).
    set (fl := negb (len (r_buf s1) =? 0) && (negb (r_obs_tow s1 =? tow t) || negb (r_sender s1 =? sender_of (m_stn m)))).
    assert (exists s2 o1, (if fl then match send_observations s1 with None => None | Some (s, o') => Some (s, ONotEmpty :: o') end else Some (s1, [])) = Some (s2, o1) /\ good_out P o1 /\ carried o1 ++ r_buf s2 = r_buf s0 /\
      len (r_buf s2) <= 210 /\ Forall (P (tow t) (sender_of (m_stn m))) (r_buf s2)) as (s2 & o1 & -> & G1 & C1 & L1 & F1).
    { destruct fl eqn:Ef.
      - destruct (send_good P s1 G0) as (o & E' & Go & C). rewrite E'. exists (set_buf s1 0 0 []), (ONotEmpty :: o). split; [reflexivity|]. split; [constructor; [exact I|exact Go]|].
        cbn [r_buf set_buf]. rewrite app_nil_r. split; [exact C|]. split; [cbn; lia|constructor].
      - exists s1, []. split; [reflexivity|]. split; [constructor|]. split; [reflexivity|]. destruct G0 as [G1 G2]. split; [exact G1|].
        unfold fl in Ef. apply andb_false_iff in Ef. destruct Ef as [Ef|Ef].
        + apply negb_false_iff, Z.eqb_eq, len_zero_nil in Ef. rewrite Ef. constructor.
        + apply orb_false_iff in Ef. destruct Ef as [E1 E2]. apply negb_false_iff, Z.eqb_eq in E1, E2. rewrite <- E1, <- E2. exact G2. }
    change (r_buf (set_sender (set_buf s2 (wn t) (tow t) (r_buf s2)) (sender_of (m_stn m)))) with (r_buf s2).
    destruct (fill_msm (r_buf s2) (m_cands m)) as [b full] eqn:Ef. destruct (fill_msm_spec _ _ _ _ L1 Ef) as (Lb & c1 & c2 & S & -> & N1 & N2).
    assert (T : took (if d then [] else r_buf s) (m_cands m) (set_buf (set_sender (set_buf s2 (wn t) (tow t) (r_buf s2)) (sender_of (m_stn m))) (wn t) (tow t) (r_buf s2 ++ c1)) (o0 ++ o1 ++ (if full then [OFull] else []))).
    { apply took_pre; [exact B2|]. exists c1, c2. split; [exact S|]. rewrite <- B0, <- C1. cbn [r_buf set_buf]. rewrite carried_app.
    replace (carried (if full then [OFull] else [])) with (@nil obs) by (destruct full; reflexivity). rewrite app_nil_r, <- !app_assoc. split; [reflexivity|].
    intros Hc. apply in_or_app. right. destruct full; [left; reflexivity|]. specialize (N1 eq_refl). contradiction. }
    do 2 eexists. exists d. split; [reflexivity|]. split; [|split; [intros Hd; exists t, o0; split; [reflexivity|exact Hd]|]].
    2:{ intros t' o' Q _ R. injection Q as <- <-. unfold d in T. rewrite R in T. exact T. }
    split; [split; [exact Lb|]; cbn; apply Forall_app; split; [exact F1|]; rewrite S in F; apply Forall_app in F; tauto|].
    split; [apply good_out_app; [exact B1|]; apply good_out_app; [exact G1|]; destruct full; repeat constructor|].
    right. exact T.
  - exists s, o0, false. split; [reflexivity|]. split; [|split; discriminate]. apply ignored; auto; unfold msm_time in E; destruct c.
    all: try (destruct (compute_gps_message_time _ _); [|discriminate]; destruct (gps_time_valid _); [discriminate|]; injection E as <-; apply (base_good P)).
    all: destruct (snd _) as [g|]; [|injection E as <-; try constructor; reflexivity]; destruct (negb _); [injection E as <-; try constructor; reflexivity|].
    all: destruct (glo_window _ _ _); [discriminate|]; injection E as <-; try constructor; reflexivity.
Qed.

(** a time of week field (unsigned) *)
Lemma message_time_total tow_ms ref : 0 <= tow_ms -> gps_time_valid ref = true -> compute_gps_message_time tow_ms ref <> None.
Proof.
  intros H0 V. unfold compute_gps_message_time. destruct (Z.leb_spec WEEK_MS tow_ms) as [?|Ht]; [discriminate|]. rewrite V. cbn [negb].
  match goal with |- context [if gps_time_valid ?t then _ else _] => assert (E : gps_time_valid t = true); [|rewrite E; discriminate] end.
  apply gps_valid_spec in V. apply gps_valid_spec. destruct (_ && negb (wn ref =? INT16_MAX)) eqn:E1; cbn [wn tow]; [lia|].
  destruct (Z.eqb_spec (wn ref) 0); cbn [negb]; [rewrite andb_false_r; cbn [wn tow]; lia|].
  clear E1. destruct (_ && true); cbn [wn tow]; lia.
Qed.

Context (legacy_dec : Z -> list Z -> option (legacy_msg obs)) (msm_dec : Z -> list Z -> option (msm_msg obs)) (utc_offset : gtime -> Z)
        (other : Z -> list Z -> rstate -> aux * list other_out).
Notation decode_payload := (decode_payload legacy_dec msm_dec utc_offset other).
Notation decode_all := (decode_all legacy_dec msm_dec utc_offset other).
Notation observations := (observations legacy_dec msm_dec).
Notation belongs := (belongs legacy_dec msm_dec utc_offset).
(** decoded time fields are unsigned *)
Definition unsigned_fields : Prop := (forall ty p m, legacy_dec ty p = Some m -> 0 <= l_tow_ms m) /\ (forall ty p m, msm_dec ty p = Some m -> 0 <= m_tow_ms m).

Lemma carried_other l : carried (obs := obs) (map (OOther (other_out := other_out)) l) = [].
Proof. induction l as [|x l IH]; [reflexivity|exact IH]. Qed.
Lemma good_other P l : good_out P (map (OOther (other_out := other_out)) l).
Proof. apply Forall_forall. intros x H. apply in_map_iff in H. destruct H as (y & <- & _). exact I. Qed.

(** [loss ref p s]: an MSM message arriving when no MSM message was seen for 5 s and something is buffered *)
Definition loses (ref : gtime) (p : list Z) (s : rstate) : Prop :=
  exists c m t o, kind_of (message_type p) = KMsm c /\ msm_dec (message_type p) p = Some m /\
    msm_time (other_out := other_out) c (m_tow_ms m) (set_leap (set_time s ref) (Some (utc_offset ref))) = Some (Some t, o) /\ msm_restart t s = true.

Lemma decode_ok P tin p (s : rstate) : unsigned_fields -> good P s -> (forall ref, tin = Some ref -> gps_time_valid ref = true) ->
  (forall ref t sd, tin = Some ref -> belongs ref p t sd -> Forall (P t sd) (observations p)) ->
  exists s' o d, decode_payload tin p s = Some (s', o) /\ stepped P s s' o (observations p) d /\ (d = true -> exists ref, tin = Some ref /\ loses ref p s).
Proof.
  intros [U1 U2] G V F. unfold ObsBuffer_model.decode_payload. destruct (len p <? 2).
  { exists s, [], false. split; [reflexivity|]. split; [apply ignored; auto; constructor|discriminate]. }
  set (ty := message_type p) in *. set (s0 := set_time s (match tin with Some t => t | None => mkt (-1) (-1000) end)).
  destruct (match tin with None => _ | Some _ => false end) eqn:Gate.
  { exists s0, [], false. split; [reflexivity|]. split; [apply ignored; auto; constructor|discriminate]. }
  set (s1 := match tin with Some t => set_leap s0 (Some (utc_offset t)) | None => s0 end).
  assert (G1 : good P s1) by (unfold s1, s0; destruct tin; exact G).
  assert (E1 : r_buf s1 = r_buf s /\ r_obs_tow s1 = r_obs_tow s /\ r_sender s1 = r_sender s) by (unfold s1, s0; destruct tin; auto). destruct E1 as (Eb & Et & Es).
  assert (exists s2 o2 d, match kind_of ty with
               | KGps => match legacy_dec ty p with Some m => add_gps m s1 | None => Some (s1, []) end
               | KGlo => match legacy_dec ty p with
                         | Some m => match r_leap s1 with Some _ => add_glo m s1 | None => Some (s1, []) end
                         | None => Some (s1, []) end
               | KMsm c => match msm_dec ty p with Some m => add_msm c m s1 | None => Some (s1, []) end
               | KOther => let '(a, os) := other ty p s1 in Some (set_aux s1 a, map OOther os)
               end = Some (s2, o2) /\ stepped P s s2 o2 (observations p) d /\ (d = true -> exists ref, tin = Some ref /\ loses ref p s)) as (s2 & o2 & d & -> & St & Hd).
  { assert (Ign : forall c, stepped P s s1 [] c false) by (intros c; apply ignored; auto; constructor).
    assert (Gated : tin = None -> kind_of ty = KOther).
    { intros ->. apply negb_false_iff, existsb_exists in Gate. destruct Gate as (x & Hx & E). apply Z.eqb_eq in E. subst x.
      unfold ungated in Hx. cbn [In] in Hx. repeat (destruct Hx as [<-|Hx]; [reflexivity|]). destruct Hx. }
    assert (Hob : observations p = match kind_of ty with KGps | KGlo => match legacy_dec ty p with Some m => somes (l_cands m) | None => [] end
                                   | KMsm _ => match msm_dec ty p with Some m => m_cands m | None => [] end | KOther => [] end) by reflexivity.
    unfold ObsBuffer_spec.belongs in F. fold ty in F. unfold stepped in *. rewrite <- Eb, <- ?Et, <- ?Es in *.
    destruct (kind_of ty) as [| |c|] eqn:K.
    - destruct tin as [ref|]; [|specialize (Gated eq_refl); discriminate]. destruct (legacy_dec ty p) as [m|] eqn:D; [|exists s1, [], false; split; [reflexivity|]; split; [apply Ign|discriminate]].
      destruct (add_gps_ok P m s1 G1) as (s2 & o2 & E & S2).
      + apply message_time_total; [eapply U1; exact D|]. cbn. apply V. reflexivity.
      + intros t Ht. rewrite <- Hob. apply (F ref); [reflexivity|]. exists m, t. auto.
      + exists s2, o2, false. split; [exact E|]. split; [rewrite Hob; exact S2|discriminate].
    - destruct tin as [ref|]; [|specialize (Gated eq_refl); discriminate]. destruct (legacy_dec ty p) as [m|] eqn:D; [|exists s1, [], false; split; [reflexivity|]; split; [apply Ign|discriminate]].
      destruct (add_glo_ok P m s1 G1) as (s2 & o2 & E & S2).
      + intros t Ht. rewrite <- Hob. apply (F ref); [reflexivity|]. exists m, t. auto.
      + exists s2, o2, false. split; [exact E|]. split; [rewrite Hob; exact S2|discriminate].
    - destruct tin as [ref|]; [|specialize (Gated eq_refl); discriminate]. destruct (msm_dec ty p) as [m|] eqn:D; [|exists s1, [], false; split; [reflexivity|]; split; [apply Ign|discriminate]].
      destruct (add_msm_ok P c m s1 G1) as (s2 & o2 & d & E & S2 & Hd & _).
      + unfold msm_time. destruct c.
        1,3,4: (match goal with |- context [compute_gps_message_time ?x ?y] => pose proof (message_time_total x y) as MT; destruct (compute_gps_message_time x y) end; [discriminate|]; exfalso; apply MT; [|apply V; reflexivity|reflexivity]).
        1,3: eapply U2; exact D.
        2: destruct (snd _); [destruct (negb _); [|destruct (glo_window _ _ _)]|]; discriminate.
        unfold beidou_tow_to_gps_tow. pose proof (Z.mod_pos_bound (m_tow_ms m + 14000) (2 ^ 32) ltac:(lia)). destruct (Z.leb_spec WEEK_MS ((m_tow_ms m + 14000) mod 2 ^ 32)); lia.
      + intros t o Ht. rewrite <- Hob. apply (F ref); [reflexivity|]. unfold msm_time in Ht. destruct c.
        1,3,4: (destruct (compute_gps_message_time _ _) as [g|] eqn:Q; [|discriminate]; destruct (gps_time_valid g); [|discriminate]; injection Ht as <- <-; exists m, g; auto).
        destruct (snd _) as [g|] eqn:Q; [|discriminate]. destruct (negb _); [discriminate|]. destruct (glo_window _ _ _); [|discriminate]. injection Ht as <- <-. exists m, g. auto.
      + exists s2, o2, d. split; [exact E|]. split; [rewrite Hob; exact S2|]. intros Hd'. destruct (Hd Hd') as (t & o & Q1 & Q2).
        exists ref. split; [reflexivity|]. exists c, m, t, o. auto.
    - destruct (other ty p s1) as [a os]. exists (set_aux s1 a), (map OOther os), false. split; [reflexivity|]. split; [|discriminate].
      destruct G1 as [G11 G12]. split; [split; [exact G11|exact G12]|]. split; [apply good_other|]. left. exists [], []. split; [reflexivity|]. rewrite carried_other, app_nil_r. split; [reflexivity|congruence]. }
  destruct (_ && _).
  - destruct St as (G2 & Go & T). destruct (send_good P s2 G2) as (o & E & Go' & C). rewrite E. exists (set_buf s2 0 0 []), (o2 ++ o), d. split; [reflexivity|].
    split; [|exact Hd]. split; [split; [cbn; lia|constructor]|]. split; [apply good_out_app; assumption|].
    assert (TT : forall k c, took k c s2 o2 -> took k c (set_buf s2 0 0 []) (o2 ++ o)).
    { intros k c (c1 & c2 & S & Q & N). exists c1, c2. split; [exact S|]. rewrite carried_app, C. cbn [r_buf set_buf]. rewrite app_nil_r. split; [exact Q|]. intros H. apply in_or_app. left. auto. }
    destruct T; [left|right]; apply TT; assumption.
  - exists s2, o2, d. split; [reflexivity|]. split; assumption.
Qed.

(** the trailing flush *)
Definition last_flag (p : list Z) : bool := (1070 <=? message_type p) && (message_type p <=? 1229) && (54 <=? len p * 8) && (getbitu p 54 1 =? 0).
Lemma flush_took (s2 : rstate) o2 (f : bool) k c : len (r_buf s2) <= 210 -> took k c s2 o2 ->
  exists s' o, (if f then match send_observations s2 with None => None | Some (s, o') => Some (s, o2 ++ o') end else Some (s2, o2)) = Some (s', o) /\ took k c s' o /\ (f = true -> r_buf s' = []).
Proof.
  intros L T. destruct f; [|exists s2, o2; split; [reflexivity|]; split; [exact T|discriminate]].
  destruct (send_ok s2 L) as (o & E & _ & C & _). rewrite E. exists (set_buf s2 0 0 []), (o2 ++ o). split; [reflexivity|]. split; [|reflexivity].
  destruct T as (c1 & c2 & S & Q & N). exists c1, c2. split; [exact S|]. rewrite carried_app, C. cbn [r_buf set_buf]. rewrite app_nil_r. split; [exact Q|]. intros H. apply in_or_app. left. auto.
Qed.
Lemma len_ge2 (p : list Z) : 2 <= len p -> (len p <? 2) = false.
Proof. intros. apply Z.ltb_ge. lia. Qed.
Lemma msm_kept ref p (s : rstate) c m t o0 : 2 <= len p -> len (r_buf s) <= 210 -> kind_of (message_type p) = KMsm c -> msm_dec (message_type p) p = Some m ->
  msm_time (other_out := other_out) c (m_tow_ms m) (set_leap (set_time s ref) (Some (utc_offset ref))) = Some (Some t, o0) ->
  gps_time_valid (r_last_gps s) = true \/ tow t <> 0 -> msm_restart t s = false ->
  exists s' o, decode_payload (Some ref) p s = Some (s', o) /\ took (r_buf s) (m_cands m) s' o.
Proof.
  intros Hp L K D T V R. unfold ObsBuffer_model.decode_payload. rewrite len_ge2 by exact Hp. rewrite K, D.
  destruct (add_msm_ok (fun _ _ _ => True) c m (set_leap (set_time s ref) (Some (utc_offset ref)))) as (s1 & o1 & d & -> & ((L1 & _) & _) & _ & Tk).
  - split; [exact L|]. apply Forall_forall. auto.
  - rewrite T. discriminate.
  - intros. apply Forall_forall. auto.
  - specialize (Tk t o0 T V R). destruct (flush_took s1 o1 (last_flag p) _ _ L1 Tk) as (s' & o & E & T' & _). exists s', o. split; [exact E|exact T'].
Qed.
Lemma legacy_gps_kept ref p (s : rstate) m t : 2 <= len p -> len (r_buf s) <= 210 -> kind_of (message_type p) = KGps -> legacy_dec (message_type p) p = Some m ->
  compute_gps_message_time (l_tow_ms m) ref = Some t -> gps_time_valid t = true -> is_msm_active t s = false ->
  gps_time_valid (r_last_gps s) = false \/ 1 <= gpsdifftime t (r_last_gps s) ->
  exists s' o, decode_payload (Some ref) p s = Some (s', o) /\ took (r_buf s) (somes (l_cands m)) s' o.
Proof.
  intros Hp L K D T V A N. unfold ObsBuffer_model.decode_payload. rewrite len_ge2 by exact Hp. rewrite K, D.
  unfold add_gps. change (r_time (set_leap (set_time s ref) (Some (utc_offset ref)))) with ref. rewrite T. rewrite V. cbn [negb].
  change (is_msm_active t (set_leap (set_time s ref) (Some (utc_offset ref)))) with (is_msm_active t s). rewrite A.
  change (r_last_gps (set_leap (set_time s ref) (Some (utc_offset ref)))) with (r_last_gps s).
  replace (negb (gps_time_valid (r_last_gps s)) || (1 <=? gpsdifftime t (r_last_gps s))) with true
    by (symmetry; apply orb_true_iff; destruct N as [->|N]; [left; reflexivity|right; apply Z.leb_le; exact N]).
  destruct (add_obs_ok (fun _ _ _ => True) m t (set_last (set_leap (set_time s ref) (Some (utc_offset ref))) t (r_last_glo s) (r_last_msm s))) as (s1 & o1 & E & (L1 & _) & _ & Tk).
  - split; [exact L|]. apply Forall_forall. auto.
  - apply Forall_forall. auto.
  - cbn [r_last_glo r_last_msm set_leap set_time]. rewrite E.
    pose proof (took_pre _ _ _ (base_sanity t ref) o1 (proj2 (base_good (fun _ _ _ => True) t ref)) Tk) as Tk'.
    destruct (flush_took s1 (base_sanity t ref ++ o1) (last_flag p) _ _ L1 Tk') as (s' & o & E' & T' & _). exists s', o. split; [exact E'|exact T'].
Qed.
Lemma last_flushes tin p (s s' : rstate) o : unsigned_fields -> len (r_buf s) <= 210 -> (forall ref, tin = Some ref -> gps_time_valid ref = true) -> tin <> None -> 2 <= len p -> last_flag p = true ->
  decode_payload tin p s = Some (s', o) -> r_buf s' = [].
Proof.
  intros U L V N Hp Lf E. unfold ObsBuffer_model.decode_payload in E. rewrite len_ge2 in E by exact Hp. destruct tin as [ref|]; [|contradiction].
  match type of E with match ?r with None => _ | Some _ => _ end = _ => destruct r as [[s1 o1]|]; [|discriminate] end.
  change ((1070 <=? message_type p) && (message_type p <=? 1229) && (54 <=? len p * 8) && (getbitu p 54 1 =? 0)) with (last_flag p) in E. rewrite Lf in E.
  destruct (send_observations s1) as [[s2 o2]|] eqn:S; [|discriminate]. injection E as <- <-. unfold send_observations in S. destruct (_ && _); [|discriminate]. injection S as <- <-. reflexivity.
Qed.
(** *** gating *)
Lemma gate p (s : rstate) : ~ In (message_type p) ungated -> exists s', decode_payload None p s = Some (s', []) /\ r_buf s' = r_buf s /\ r_sender s' = r_sender s /\
  r_obs_tow s' = r_obs_tow s /\ r_obs_wn s' = r_obs_wn s /\ r_aux s' = r_aux s /\ r_leap s' = r_leap s /\ r_last_gps s' = r_last_gps s /\ r_last_glo s' = r_last_glo s /\ r_last_msm s' = r_last_msm s.
Proof.
  intros N. unfold ObsBuffer_model.decode_payload. destruct (len p <? 2); [eexists; split; [reflexivity|auto 12]|].
  replace (existsb (Z.eqb (message_type p)) ungated) with false; [eexists; split; [reflexivity|cbn; auto 12]|].
  symmetry. apply not_true_iff_false. intros H. apply N. apply existsb_exists in H. destruct H as (x & Hx & E). apply Z.eqb_eq in E. subst x. exact Hx.
Qed.

(** *** histories *)
Lemma subseq_refl {A} (l : list A) : subseq l l.
Proof. induction l; [apply subseq_nil|apply subseq_cons; assumption]. Qed.
Lemma subseq_trans {A} (a b c : list A) : subseq a b -> subseq b c -> subseq a c.
Proof.
  intros H1 H2. revert a H1. induction H2 as [l|x l l' H IH|x l l' H IH]; intros a H1.
  - inversion H1; subst. constructor.
  - constructor. auto.
  - inversion H1; subst; [apply subseq_nil|apply subseq_skip; auto|apply subseq_cons; auto].
Qed.
Lemma subseq_app_l {A} (k a b : list A) : subseq a b -> subseq (k ++ a) (k ++ b).
Proof. intros H. induction k; [exact H|]. cbn. apply subseq_cons. assumption. Qed.
Lemma subseq_app_r {A} (a b k : list A) : subseq a b -> subseq (a ++ k) (b ++ k).
Proof.
  intros H. induction H as [l|x l l' H IH|x l l' H IH]; [|cbn; apply subseq_skip; exact IH|cbn; apply subseq_cons; exact IH].
  cbn. induction l as [|y l IH]; [apply subseq_refl|cbn; constructor; exact IH].
Qed.
Lemma subseq_prefix {A} (a b : list A) : subseq a (a ++ b).
Proof. rewrite <- (app_nil_r a) at 1. apply subseq_app_l. constructor. Qed.
Lemma subseq_suffix {A} (a b : list A) : subseq b (a ++ b).
Proof. induction a; [apply subseq_refl|cbn; constructor; assumption]. Qed.
Lemma stepped_subseq P s s' o c d : stepped P s s' o c d -> subseq (carried o ++ r_buf s') (r_buf s ++ c).
Proof.
  intros (_ & _ & [(c1 & c2 & S & E & _)|(c1 & c2 & S & E & _)]); rewrite E.
  - destruct c1; [|discriminate]. rewrite app_nil_r. apply subseq_prefix.
  - subst c. eapply subseq_trans; [|apply subseq_app_l; apply subseq_prefix]. destruct d; [apply subseq_suffix|apply subseq_refl].
Qed.
Definition times_valid (l : list (option gtime * list Z)) : Prop := forall ref p, In (Some ref, p) l -> gps_time_valid ref = true.
Lemma history_ok P l : unsigned_fields -> times_valid l ->
  (forall ref p t sd, In (Some ref, p) l -> belongs ref p t sd -> Forall (P t sd) (observations p)) ->
  forall s, good P s -> exists s' o, decode_all l s = Some (s', o) /\ good P s' /\ good_out P o /\
    subseq (carried o ++ r_buf s') (r_buf s ++ concat (map (fun x => observations (snd x)) l)).
Proof.
  intros U. induction l as [|[tin p] l IH]; intros V F s G.
  - exists s, []. split; [reflexivity|]. split; [exact G|]. split; [constructor|]. cbn. rewrite app_nil_r. apply subseq_refl.
  - cbn [ObsBuffer_model.decode_all]. destruct (decode_ok P tin p s U G) as (s1 & o1 & d & -> & St & _).
    { intros ref ->. eapply V. left. reflexivity. }
    { intros ref t sd ->. eapply F. left. reflexivity. }
    destruct (IH) with (s := s1) as (s2 & o2 & -> & G2 & Go2 & Q).
    { intros ref q Hq. eapply V. right. exact Hq. } { intros ref q t sd Hq. eapply F. right. exact Hq. } { apply St. }
    exists s2, (o1 ++ o2). split; [reflexivity|]. split; [exact G2|]. split; [apply good_out_app; [apply St|exact Go2]|].
    rewrite carried_app, <- app_assoc. cbn [map concat snd]. eapply subseq_trans; [apply subseq_app_l; exact Q|]. rewrite !app_assoc. apply subseq_app_r.
    eapply stepped_subseq. exact St.
Qed.
Lemma init_good P a : good P (r_init (obs := obs) a).
Proof. split; [cbn; lia|constructor]. Qed.
End Proofs.
