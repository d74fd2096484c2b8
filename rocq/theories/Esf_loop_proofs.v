(** The ESF handlers against Esf_spec.v. *)
From Verif Require Import Base UbxVar_model Esf_model Esf_spec.
Open Scope Z_scope.

Lemma item_type_eq d : Z.shiftr (Z.land d 0x3F000000) 24 = item_type d.
Proof.
  rewrite Z.shiftr_land. change (Z.shiftr 0x3F000000 24) with (Z.ones 6). rewrite Z.land_ones, Z.shiftr_div_pow2 by lia. reflexivity.
Qed.
Lemma item_val_eq d : Z.land d 0xFFFFFF = item_val d.
Proof. change 0xFFFFFF with (Z.ones 24). rewrite Z.land_ones by lia. reflexivity. Qed.
Lemma tick_eq d : (Z.testbit (item_val d) 23, Z.land (item_val d) 0x3FFFFF) = tick_of d.
Proof.
  unfold tick_of, item_val. f_equal.
  - rewrite Z.mod_pow2_bits_low by lia. rewrite Z.testbit_odd, Z.shiftr_div_pow2 by lia. reflexivity.
  - change 0x3FFFFF with (Z.ones 22). rewrite Z.land_ones by lia. lia.
Qed.
Lemma flags_eq d : Z.lor (Z.lor 2 (Z.shiftl (Z.shiftr (Z.land (item_val d) 0x800000) 23) 5)) (Z.shiftl 3 3) = 2 + 8 * 3 + 32 * (item_val d / 2 ^ 23).
Proof.
  rewrite Z.shiftr_land. change (Z.shiftr 0x800000 23) with (Z.ones 1). rewrite Z.land_ones, Z.shiftr_div_pow2 by lia.
  unfold item_val. pose proof (Z.mod_pos_bound d (2 ^ 24) ltac:(lia)) as B. set (v := d mod 2 ^ 24) in *.
  assert (E : v / 2 ^ 23 = 0 \/ v / 2 ^ 23 = 1) by lia. destruct E as [-> | ->]; reflexivity.
Qed.
Lemma convert24b_eq d : convert24b (item_val d) = signed24 (item_val d).
Proof. unfold convert24b, signed24. destruct (Z.ltb_spec (2 ^ 23 - 1) (item_val d)); destruct (Z.ltb_spec (item_val d) (2 ^ 23)); lia. Qed.
Lemma wheel_eq t : wheel_source t = wheel t.
Proof.
  unfold wheel_source, wheel.
  destruct (Z.eqb_spec t 8) as [->|]; [reflexivity|]. destruct (Z.eqb_spec t 9) as [->|]; [reflexivity|].
  destruct (Z.eqb_spec t 6) as [->|]; [reflexivity|]. destruct (Z.eqb_spec t 7) as [->|]; [reflexivity|].
  destruct t as [|p|p]; try reflexivity. do 4 (destruct p as [p|p|]; try reflexivity; try lia).
Qed.
Lemma signed32_eq z : to_s32_wrap z = signed32 z.
Proof. unfold to_s32_wrap, signed32. cbv zeta. destruct (Z.ltb_spec (z mod 2 ^ 32) (2 ^ 31)); lia. Qed.
Lemma signed32_mod z : (signed32 z) mod 2 ^ 32 = z mod 2 ^ 32. Proof. unfold signed32. lia. Qed.
Lemma signed32_ext a b : a mod 2 ^ 32 = b mod 2 ^ 32 -> signed32 a = signed32 b. Proof. unfold signed32. intros. lia. Qed.
Lemma has_calib_eq m : esf_has_calib (em_flags m) = calibrated m.
Proof.
  unfold esf_has_calib, calibrated. set (f := em_flags m).
  assert (E : Z.land f 8 = if Z.testbit f 3 then 8 else 0).
  { apply Z.bits_inj'. intros n Hn. rewrite Z.land_spec. change 8 with (2 ^ 3). rewrite Z.pow2_bits_eqb by lia.
    destruct (Z.eqb_spec 3 n) as [<-|N].
    - destruct (Z.testbit f 3); reflexivity.
    - rewrite andb_false_r. destruct (Z.testbit f 3); [rewrite Z.pow2_bits_false by lia|rewrite Z.bits_0]; reflexivity. }
  rewrite E. change 8 with (2 ^ 3). rewrite <- Z.testbit_spec' by lia. destruct (Z.testbit f 3); reflexivity.
Qed.
Lemma num_meas_eq f : esf_num_meas f = (f / 2 ^ 11) mod 32.
Proof. unfold esf_num_meas. change 0x1F with (Z.ones 5). rewrite Z.land_ones, Z.shiftr_div_pow2 by lia. reflexivity. Qed.

(** accumulated ticks *)
Definition tick_state (s : esf_state) (T : list (bool * Z)) : Prop :=
  match rev T with
  | [] => last_tick s = 2 ^ 32 - 1
  | (_, c) :: _ => last_tick s = c /\ 0 <= c < 2 ^ 22 /\ out_tick s = signed32 (tick_sum T)
  end.
Lemma tick_increments_app T : forall c r x, tick_increments c (T ++ [(r, x)]) =
  tick_increments c T + (let l := last (map snd T) c in if r then l - x else x - l).
Proof.
  induction T as [|[b y] T IH]; intros c r x; cbn [tick_increments app map snd].
  - cbn [last]. lia.
  - rewrite IH. cbv zeta. replace (last (y :: map snd T) c) with (last (map snd T) y); [lia|].
    destruct T as [|z T]; [reflexivity|]. cbn [map last]. clear. revert z. induction T as [|w T IH]; intros z; [reflexivity|]. cbn [map last]. apply IH.
Qed.
Lemma tick_sum_app T r x : T <> [] -> tick_sum (T ++ [(r, x)]) = tick_sum T + (let l := last (map snd T) 0 in if r then l - x else x - l).
Proof.
  destruct T as [|[b c] T]; [easy|]. intros _. cbn [tick_sum app map snd]. rewrite tick_increments_app. cbv zeta.
  replace (last (c :: map snd T) 0) with (last (map snd T) c); [lia|].
  destruct T as [|z T]; [reflexivity|]. cbn [map last]. clear. revert z. induction T as [|w T IH]; intros z; [reflexivity|]. cbn [map last]. apply IH.
Qed.
Lemma last_rev {A} (l : list A) d : last l d = hd d (rev l).
Proof. destruct (rev l) eqn:E; [apply (f_equal (@rev _)) in E; rewrite rev_involutive in E; subst; reflexivity|].
  apply (f_equal (@rev _)) in E. rewrite rev_involutive in E. subst l. cbn [rev]. rewrite last_last. reflexivity. Qed.
Lemma tick_step s T d : tick_state s T ->
  let tick := snd (tick_of d) in
  let ot := if last_tick s =? 2 ^ 32 - 1 then tick
            else let inc := (tick - last_tick s) mod 2 ^ 32 in to_s32_wrap (if fst (tick_of d) then out_tick s - inc else out_tick s + inc) in
  ot = signed32 (tick_sum (T ++ [tick_of d])) /\ 0 <= tick < 2 ^ 22.
Proof.
  intros H. cbv zeta. set (p := tick_of d). assert (P : 0 <= snd p < 2 ^ 22) by (unfold p, tick_of; cbn [snd]; lia). split; [|exact P].
  clearbody p. destruct p as [r x]. cbn [fst snd] in *. unfold tick_state in H. destruct (rev T) as [|[b c] R] eqn:E.
  - apply (f_equal (@rev _)) in E. rewrite rev_involutive in E. subst T. rewrite H. rewrite Z.eqb_refl. cbn [rev app tick_sum tick_increments]. unfold signed32. lia.
  - destruct H as (H1 & H2 & H3). replace (last_tick s =? 2 ^ 32 - 1) with false by lia. 
    rewrite tick_sum_app by (intros ->; discriminate). rewrite last_rev, <- map_rev, E. cbn [map hd snd]. cbv zeta. rewrite signed32_eq, H1, H3.
    apply signed32_ext. pose proof (signed32_mod (tick_sum T)). set (S := signed32 (tick_sum T)) in *. clearbody S. destruct r; lia.
Qed.
Definition items_of (l : list Z) : list Z := filter (fun d => (6 <=? item_type d) && (item_type d <=? 11)) l.
Definition ticks_of (T : list (bool * Z)) (l : list Z) : list (bool * Z) :=
  T ++ map tick_of (filter (fun d => negb (item_type d =? 11)) l).
Definition same_imu (s s' : esf_state) : Prop := running_imu s' = running_imu s /\ last_imu s' = last_imu s /\ sent s' = sent s /\ temp s' = temp s.

Lemma meas_accept tg l : 0 <= tg < 2 ^ 32 -> forall s T, tick_state s T ->
  (running_odo s = -1 \/ running_odo s = last_odo s /\ 0 <= tg - running_odo s <= 1000) ->
  exists s', meas_loop tg l s = (s', expected_odo T (map (fun d => (tg, d)) (items_of l))) /\ same_imu s s' /\ tick_state s' (ticks_of T (items_of l)) /\
    (items_of l = [] /\ s' = s \/ running_odo s' = tg /\ last_odo s' = tg).
Proof.
  intros Ht. induction l as [|d l IH]; intros s T HT Hs.
  - exists s. split; [reflexivity|]. split; [repeat split|]. split; [unfold ticks_of; cbn [items_of filter map]; rewrite app_nil_r; exact HT|]. left. split; reflexivity.
  - cbn [meas_loop]. cbv zeta. rewrite item_type_eq, item_val_eq. unfold items_of. cbn [filter]. fold (items_of l).
    unfold is_odo. destruct ((6 <=? item_type d) && (item_type d <=? 11)) eqn:O.
    2: { apply IH; assumption. }
    replace (negb (running_odo s =? -1) && (1000 <? (tg - running_odo s) mod 2 ^ 64)) with false.
    2: { symmetry. destruct Hs as [Hs|[_ Hs]]; [rewrite Hs; reflexivity|]. rewrite Z.mod_small by lia. lia. }
    replace (if running_odo s =? -1 then tg else running_odo s + (tg - last_odo s) mod 2 ^ 32) with tg.
    2: { destruct (Z.eqb_spec (running_odo s) (-1)); [reflexivity|]. destruct Hs as [Hs|[Hs1 Hs]]; [lia|]. rewrite <- Hs1. rewrite Z.mod_small by lia. lia. }
    cbn [map expected_odo]. destruct (item_type d =? 11) eqn:I11.
    + specialize (IH (mk_esf tg tg (last_tick s) (out_tick s) (running_imu s) (last_imu s) (sent s) (temp s)) T).
      destruct IH as (s' & E & SI & TS & F). { exact HT. } { right. cbn [running_odo last_odo]. lia. }
      rewrite E. exists s'. split; [rewrite flags_eq, convert24b_eq; reflexivity|]. split; [exact SI|]. split.
      * unfold ticks_of in *. cbn [filter]. rewrite I11. cbn [negb]. exact TS.
      * right. destruct F as [[_ ->]|F]; [split; reflexivity|exact F].
    + pose proof (tick_step s T d HT) as TK. cbv zeta in TK. rewrite <- tick_eq in TK. cbn [fst snd] in TK. rewrite (tick_eq d) in TK. destruct TK as [K1 K2].
      set (ot := if last_tick s =? 2 ^ 32 - 1 then _ else _) in *.
      specialize (IH (mk_esf tg tg (Z.land (item_val d) 0x3FFFFF) ot (running_imu s) (last_imu s) (sent s) (temp s)) (T ++ [tick_of d])).
      destruct IH as (s' & E & SI & TS & F).
      { unfold tick_state. rewrite rev_app_distr. cbn [rev app]. pose proof (f_equal snd (tick_eq d)) as TE. cbn [snd] in TE. destruct (tick_of d) as [rb c]. cbn [snd] in TE. subst c. cbn [last_tick out_tick]. split; [reflexivity|]. split; [exact K2|exact K1]. }
      { right. cbn [running_odo last_odo]. lia. }
      rewrite E. exists s'. split; [rewrite wheel_eq, K1; reflexivity|]. split; [exact SI|]. split.
      * unfold ticks_of in *. cbn [filter]. rewrite I11. cbn [negb map]. rewrite <- app_assoc in TS. exact TS.
      * right. destruct F as [[_ ->]|F]; [split; reflexivity|exact F].
Qed.
Lemma meas_reject tg l : 0 <= tg < 2 ^ 32 -> forall s, 0 <= running_odo s < 2 ^ 32 -> ~ (0 <= tg - running_odo s <= 1000) ->
  meas_loop tg l s = (match items_of l with [] => s | _ => mk_esf (-1) (last_odo s) (last_tick s) (out_tick s) (running_imu s) (last_imu s) (sent s) (temp s) end, []).
Proof.
  intros Ht. induction l as [|d l IH]; intros s Hr Hg; [reflexivity|].
  cbn [meas_loop]. cbv zeta. rewrite item_type_eq, item_val_eq. unfold items_of. cbn [filter]. fold (items_of l).
  unfold is_odo. destruct ((6 <=? item_type d) && (item_type d <=? 11)); [|apply IH; assumption].
  replace (negb (running_odo s =? -1) && (1000 <? (tg - running_odo s) mod 2 ^ 64)) with true by lia. reflexivity.
Qed.

(** * ESF-RAW *)
Lemma raw_type_eq d : Z.land (Z.shiftr d 24) 0xFF = raw_type d.
Proof. change 0xFF with (Z.ones 8). rewrite Z.land_ones, Z.shiftr_div_pow2 by lia. reflexivity. Qed.
Definition in_axes (t : Z) : bool := existsb (Z.eqb t) axes.
Lemma is_imu_eq t : is_imu t = in_axes t.
Proof. unfold is_imu, in_axes, axes. cbn [existsb]. destruct (t =? 14), (t =? 13), (t =? 5), (t =? 16), (t =? 17), (t =? 18); reflexivity. Qed.
Lemma in_axes_spec t : in_axes t = true <-> In t axes.
Proof. unfold in_axes. rewrite existsb_exists. split; [intros (x & H1 & H2); apply Z.eqb_eq in H2; subst; exact H1 | intros H; exists t; split; [exact H|apply Z.eqb_refl]]. Qed.
Definition scale_of (t v : Z) : Z := if (t =? 14) || (t =? 13) || (t =? 5) then scale_gyr v else scale_acc v.
Definition cnt (t : Z) (p : list (Z * Z)) : Z := len (axis t p).
Lemma axis_app t p q : axis t (p ++ q) = axis t p ++ axis t q.
Proof. unfold axis. rewrite filter_app, map_app. reflexivity. Qed.
Lemma axis_one t d ts : axis t [(d, ts)] = if raw_type d =? t then [signed24 (item_val d)] else [].
Proof. unfold axis. cbn [filter fst]. destruct (raw_type d =? t); reflexivity. Qed.
Lemma parse_imu_eq d f : In (raw_type d) axes ->
  parse_imu (item_val d) (raw_type d) f = set_at f (raw_type d) (scale_of (raw_type d) (signed24 (item_val d))).
Proof.
  intros H. unfold parse_imu, scale_of. rewrite convert24b_eq. destruct ((raw_type d =? 14) || (raw_type d =? 13) || (raw_type d =? 5)) eqn:E; [reflexivity|].
  unfold axes in H. cbn [In] in H. replace ((raw_type d =? 16) || (raw_type d =? 17) || (raw_type d =? 18)) with true by lia. reflexivity.
Qed.
Lemma complete_eq r c : complete r c = forallb (fun t => r t =? c + 1) axes.
Proof. unfold complete, axes. cbn [forallb]. destruct (r 14 =? c + 1), (r 13 =? c + 1), (r 5 =? c + 1), (r 16 =? c + 1), (r 17 =? c + 1), (r 18 =? c + 1); reflexivity. Qed.

(** loop state after the samples [p] *)
Record loop_inv (p : list (Z * Z)) (l : imu_loop) : Prop := {
  li_recv : forall t, In t axes -> recv l t = cnt t p;
  li_cur : forall t, In t axes -> cur l <= cnt t p <= cur l + 1;
  li_min : exists t, In t axes /\ cnt t p = cur l;
  li_cur0 : 0 <= cur l;
  li_fields : forall t, In t axes -> 0 < cnt t p -> fields l t = scale_of t (last (axis t p) 0) }.
Lemma loop_inv_init : loop_inv [] (mk_imu_loop (fun _ => 0) 0 (fun _ => 0)).
Proof. assert (C : forall t, cnt t [] = 0) by reflexivity. split; intros; rewrite ?C in *; cbn [recv cur] in *; try lia. exists 16. split; [left|]; reflexivity. Qed.

Definition same_odo (s s' : esf_state) : Prop := running_odo s' = running_odo s /\ last_odo s' = last_odo s /\ last_tick s' = last_tick s /\ out_tick s' = out_tick s.
Definition clock_ok (msss R : Z) (s : esf_state) : Prop :=
  0 <= R /\ (running_imu s = -1 /\ R = msss \/ running_imu s <> -1 /\ (msss - last_imu s) mod 2 ^ 32 <= 1000 /\ R = running_imu s + (msss - last_imu s) mod 2 ^ 32).
Lemma cnt_app t p d ts : cnt t (p ++ [(d, ts)]) = cnt t p + (if raw_type d =? t then 1 else 0).
Proof. unfold cnt. rewrite axis_app, len_app, axis_one. destruct (raw_type d =? t); reflexivity. Qed.
Lemma loop_inv_other p l d ts : loop_inv p l -> in_axes (raw_type d) = false -> loop_inv (p ++ [(d, ts)]) l.
Proof.
  intros I N. assert (NT : forall t, In t axes -> (raw_type d =? t) = false).
  { intros t Ht. apply Z.eqb_neq. intros E. subst t. apply in_axes_spec in Ht. congruence. }
  destruct I as [I1 I2 (t0 & I3 & I3') I4 I5].
  assert (C : forall t, In t axes -> cnt t (p ++ [(d, ts)]) = cnt t p) by (intros t Ht; rewrite cnt_app, NT by exact Ht; lia).
  split; intros; rewrite ?C in * by assumption; auto.
  - exists t0. rewrite C by exact I3. split; assumption.
  - rewrite I5 by assumption. rewrite axis_app, axis_one, NT by assumption. rewrite app_nil_r. reflexivity.
Qed.
Lemma loop_inv_step p l d ts : loop_inv p l -> In (raw_type d) axes -> recv l (raw_type d) + 1 = cur l + 1 ->
  let f := set_at (fields l) (raw_type d) (scale_of (raw_type d) (signed24 (item_val d))) in
  let rc := set_at (recv l) (raw_type d) (recv l (raw_type d) + 1) in
  (complete rc (cur l) = false -> loop_inv (p ++ [(d, ts)]) (mk_imu_loop rc (cur l) f)) /\
  (complete rc (cur l) = true -> loop_inv (p ++ [(d, ts)]) (mk_imu_loop rc (cur l + 1) f) /\
     (forall t, In t axes -> cnt t (p ++ [(d, ts)]) = cur l + 1) /\ (forall t, In t axes -> f t = scale_of t (last (axis t (p ++ [(d, ts)])) 0))).
Proof.
  intros I HT HR f rc. destruct I as [I1 I2 I3 I4 I5]. set (t0 := raw_type d) in *.
  assert (RC : forall t, In t axes -> rc t = cnt t (p ++ [(d, ts)])).
  { intros t Ht. rewrite cnt_app. fold t0. unfold rc, set_at. rewrite (Z.eqb_sym t t0). destruct (Z.eqb_spec t0 t) as [<-|]; rewrite I1 by assumption; lia. }
  assert (CC : forall t, In t axes -> cur l <= cnt t (p ++ [(d, ts)]) <= cur l + 1).
  { intros t Ht. rewrite cnt_app. fold t0. pose proof (I2 t Ht). pose proof (I1 t Ht). destruct (Z.eqb_spec t0 t) as [<-|]; lia. }
  assert (FF : forall t, In t axes -> 0 < cnt t (p ++ [(d, ts)]) -> f t = scale_of t (last (axis t (p ++ [(d, ts)])) 0)).
  { intros t Ht Hc. unfold f, set_at. rewrite (Z.eqb_sym t t0). rewrite axis_app, axis_one. fold t0. rewrite cnt_app in Hc. fold t0 in Hc.
    destruct (Z.eqb_spec t0 t) as [<-|]; [rewrite last_last; reflexivity|]. rewrite app_nil_r. apply I5; [exact Ht|lia]. }
  split; intros CP; rewrite complete_eq in CP.
  - split; cbn [recv cur fields]; auto.
    assert (NE : ~ forallb (fun t => rc t =? cur l + 1) axes = true) by congruence. rewrite forallb_forall in NE.
    destruct (Exists_dec (fun t => rc t <> cur l + 1) axes) as [X|X].
    { intros t. destruct (Z.eq_dec (rc t) (cur l + 1)); [right; lia|left; assumption]. }
    + apply Exists_exists in X. destruct X as (t & X1 & X2). exists t. split; [exact X1|]. rewrite RC in X2 by exact X1. specialize (CC t X1). lia.
    + exfalso. apply NE. intros t Ht. destruct (Z.eqb_spec (rc t) (cur l + 1)); [reflexivity|]. exfalso. apply X, Exists_exists. exists t. split; assumption.
  - rewrite forallb_forall in CP. assert (AL : forall t, In t axes -> cnt t (p ++ [(d, ts)]) = cur l + 1) by (intros t Ht; rewrite <- RC by exact Ht; specialize (CP t Ht); lia).
    split; [|split; [exact AL|]].
    + split; cbn [recv cur fields]; auto.
      * intros t Ht. rewrite AL by exact Ht. lia.
      * exists 16. split; [left; reflexivity|]. apply AL. left. reflexivity.
      * lia.
    + intros t Ht. apply FF; [exact Ht|]. rewrite AL by exact Ht. lia.
Qed.
Lemma clock_ok_after msss R s : 0 <= R -> running_imu s = R -> last_imu s = msss -> clock_ok msss R s.
Proof. intros H H1 H2. split; [exact H|]. right. rewrite H1, H2. rewrite Z.sub_diag. split; [lia|]. split; [rewrite Z.mod_0_l; lia|rewrite Z.mod_0_l; lia]. Qed.
Lemma nth_axis items pre t x post k : items = pre ++ x :: post -> length (axis t (pre ++ [x])) = S k ->
  nth k (axis t items) 0 = last (axis t (pre ++ [x])) 0.
Proof.
  intros -> H. replace (pre ++ x :: post) with ((pre ++ [x]) ++ post) by (rewrite <- app_assoc; reflexivity). rewrite axis_app.
  rewrite app_nth1 by lia. set (L := axis t (pre ++ [x])) in *.
  destruct (@exists_last _ L) as (L' & y & E); [intros E; rewrite E in H; discriminate|]. rewrite E in *. rewrite app_length in H. cbn [length] in H.
  rewrite last_last, app_nth2 by lia. replace (k - length L')%nat with 0%nat by lia. reflexivity.
Qed.
Lemma raw_loop_outputs msss ts0 R items : forall rest pre s l, items = pre ++ rest -> loop_inv pre l -> clock_ok msss R s ->
  let '(s', outs) := raw_loop msss ts0 rest s l in
  same_odo s s' /\ filter is_odo_out outs = [] /\
  (forall k o, nth_error (filter is_imu_raw outs) k = Some o -> kth_imu R ts0 items (Z.to_nat (cur l) + k) o) /\
  (if existsb (fun p => in_axes (raw_type (fst p))) rest then running_imu s' = R /\ last_imu s' = msss else running_imu s' = running_imu s /\ last_imu s' = last_imu s) /\
  ((forall n t u, In t axes -> In u axes -> cnt t (pre ++ firstn n rest) <= cnt u (pre ++ firstn n rest) + 1) ->
     exists t, In t axes /\ cnt t items = cur l + len (filter is_imu_raw outs) /\ (forall u, In u axes -> cur l + len (filter is_imu_raw outs) <= cnt u items)).
Proof.
  induction rest as [|[d ts] rest IH]; intros pre s l Hi Inv Ck.
  - cbn [raw_loop]. split; [repeat split|]. split; [reflexivity|]. split; [intros [|k] o H; discriminate|]. split; [split; reflexivity|].
    intros _. rewrite app_nil_r in Hi. subst items. destruct Inv as [I1 I2 (t & I3 & I3') I4 I5]. exists t. cbn [filter]. change (len []) with 0.
    split; [exact I3|]. split; [lia|]. intros u Hu. specialize (I2 u Hu). lia.
  - assert (Hi' : items = (pre ++ [(d, ts)]) ++ rest) by (rewrite <- app_assoc; exact Hi).
    assert (PF : forall n, (pre ++ [(d, ts)]) ++ firstn n rest = pre ++ firstn (S n) ((d, ts) :: rest)) by (intros n; rewrite <- app_assoc; reflexivity).
    cbn [raw_loop]. cbv zeta. rewrite raw_type_eq, item_val_eq, is_imu_eq. cbn [existsb fst].
    set (s0 := if raw_type d =? 12 then _ else s).
    assert (Ck0 : clock_ok msss R s0) by (unfold s0; destruct (raw_type d =? 12); exact Ck).
    assert (RI : running_imu s0 = running_imu s /\ last_imu s0 = last_imu s /\ same_odo s s0 /\ sent s0 = sent s) by (unfold s0; destruct (raw_type d =? 12); repeat split).
    clearbody s0. destruct RI as (RI1 & RI2 & RI3 & RI4).
    destruct (in_axes (raw_type d)) eqn:AX; cbn [negb].
    2: { specialize (IH (pre ++ [(d, ts)]) s0 l Hi' (loop_inv_other pre l d ts Inv AX) Ck0).
         destruct (raw_loop msss ts0 rest s0 l) as [s' outs]. destruct IH as (H1 & H2 & H3 & H4 & H5).
         split; [unfold same_odo in *; intuition congruence|]. split; [exact H2|]. split; [exact H3|]. split.
         - cbn [orb]. rewrite RI1, RI2 in H4. exact H4.
         - intros B. apply H5. intros n. rewrite PF. apply B. }
    cbn [orb]. assert (HT : In (raw_type d) axes) by (apply in_axes_spec; exact AX).
    replace (negb (running_imu s0 =? -1) && (1000 <? (msss - last_imu s0) mod 2 ^ 32)) with false.
    2: { symmetry. destruct Ck0 as [_ [[C1 C2]|(C1 & C2 & C3)]]; [rewrite C1; reflexivity|]. apply andb_false_intro2. apply Z.ltb_ge. exact C2. }
    replace (if running_imu s0 =? -1 then msss else running_imu s0 + (msss - last_imu s0) mod 2 ^ 32) with R.
    2: { destruct Ck0 as [_ [[C1 C2]|(C1 & C2 & C3)]]; [rewrite C1; exact C2|]. apply Z.eqb_neq in C1. rewrite C1. exact C3. }
    rewrite parse_imu_eq by exact HT. cbn [sent temp running_odo last_odo last_tick out_tick running_imu last_imu].
    set (f := set_at (fields l) (raw_type d) (scale_of (raw_type d) (signed24 (item_val d)))).
    set (rc := set_at (recv l) (raw_type d) (recv l (raw_type d) + 1)).
    set (s1 := mk_esf (running_odo s0) (last_odo s0) (last_tick s0) (out_tick s0) R msss (sent s0) (temp s0)).
    assert (RT : rc (raw_type d) = recv l (raw_type d) + 1) by (unfold rc, set_at; rewrite Z.eqb_refl; reflexivity).
    rewrite RT. destruct (Z.eqb_spec (recv l (raw_type d) + 1) (cur l + 1)) as [EQ|NE]; cbn [negb].
    2: { split; [exact RI3|]. split; [reflexivity|]. split; [intros [|k] o H; discriminate|]. split; [split; reflexivity|].
         intros B. exfalso. destruct Inv as [I1 I2 (t & I3 & I3') I4 I5].
         specialize (B 1%nat (raw_type d) t HT I3). cbn [firstn] in B. rewrite !cnt_app in B. rewrite Z.eqb_refl in B. rewrite <- I1 in B by exact HT.
         pose proof (I2 _ HT) as I2'. rewrite <- I1 in I2' by exact HT.
         destruct (Z.eqb_spec (raw_type d) t) as [E|]; [rewrite <- E in I3'; rewrite <- I1 in I3' by exact HT; lia|]. lia. }
    destruct (loop_inv_step pre l d ts Inv HT EQ) as [ST1 ST2]. fold rc f in ST1, ST2.
    destruct (complete rc (cur l)) eqn:CP.
    + destruct (ST2 eq_refl) as (Inv' & AL & FL). clear ST1 ST2.
      set (s2 := mk_esf _ _ _ _ _ _ _ _).
      assert (Ck2 : clock_ok msss R s2) by (apply clock_ok_after; [apply Ck0|reflexivity|reflexivity]).
      specialize (IH (pre ++ [(d, ts)]) s2 (mk_imu_loop rc (cur l + 1) f) Hi' Inv' Ck2).
      destruct (raw_loop msss ts0 rest s2 _) as [s3 outs]. destruct IH as (H1 & H2 & H3 & H4 & H5). cbn [cur] in *.
      assert (FI : forall m, is_imu_raw m = true -> filter is_imu_raw ((if sent s0 mod 20 =? 0 then [ImuAux (aux_temp (temp s0))] else []) ++ m :: outs) = m :: filter is_imu_raw outs).
      { intros m Hm. rewrite filter_app. cbn [filter]. rewrite Hm. destruct (sent s0 mod 20 =? 0); reflexivity. }
      split; [unfold same_odo in *; unfold s2 in *; cbn [running_odo last_odo last_tick out_tick] in *; intuition congruence|].
      split; [rewrite filter_app; cbn [filter is_odo_out]; rewrite H2; destruct (sent s0 mod 20 =? 0); reflexivity|].
      rewrite FI by reflexivity.
      pose proof (li_cur0 _ _ Inv) as C0.
      split; [|split].
      * intros [|k] o H; cbn [nth_error] in H.
        -- injection H as <-. exists pre, d, ts, rest. split; [exact Hi|].
           assert (LN : forall t, In t axes -> length (axis t (pre ++ [(d, ts)])) = S (Z.to_nat (cur l) + 0)).
           { intros t Ht. specialize (AL t Ht). unfold cnt, len in AL. lia. }
           split; [exact LN|]. split; [exact HT|].
           assert (NA : forall t, In t axes -> f t = scale_of t (nth (Z.to_nat (cur l) + 0) (axis t items) 0)).
           { intros t Ht. rewrite (nth_axis items pre t (d, ts) rest _ Hi (LN t Ht)). apply FL. exact Ht. }
           unfold axes in NA. cbn [In] in NA. 
           rewrite (NA 16), (NA 17), (NA 18), (NA 14), (NA 13), (NA 5) by auto 10. reflexivity.
        -- replace (Z.to_nat (cur l) + S k)%nat with (Z.to_nat (cur l + 1) + k)%nat by lia. apply H3. exact H.
      * destruct (existsb (fun p => in_axes (raw_type (fst p))) rest); [exact H4|]. rewrite (proj1 H4), (proj2 H4). split; reflexivity.
      * intros B. destruct H5 as (t & T1 & T2 & T3); [intros n; rewrite PF; apply B|]. exists t. rewrite len_cons. split; [exact T1|]. split; [lia|]. intros u Hu. specialize (T3 u Hu). lia.
    + clear ST2. specialize (ST1 eq_refl).
      assert (Ck1 : clock_ok msss R s1) by (apply clock_ok_after; [apply Ck0|reflexivity|reflexivity]).
      specialize (IH (pre ++ [(d, ts)]) s1 (mk_imu_loop rc (cur l) f) Hi' ST1 Ck1).
      destruct (raw_loop msss ts0 rest s1 _) as [s3 outs]. destruct IH as (H1 & H2 & H3 & H4 & H5). cbn [cur] in *.
      split; [unfold same_odo in *; unfold s1 in *; cbn [running_odo last_odo last_tick out_tick] in *; intuition congruence|].
      split; [exact H2|]. split; [exact H3|]. split.
      * destruct (existsb (fun p => in_axes (raw_type (fst p))) rest); [exact H4|]. rewrite (proj1 H4), (proj2 H4). split; reflexivity.
      * intros B. apply H5. intros n. rewrite PF. apply B.
Qed.
Lemma raw_loop_gap msss ts0 : forall rest s l, running_imu s <> -1 -> 1000 < (msss - last_imu s) mod 2 ^ 32 ->
  let '(s', outs) := raw_loop msss ts0 rest s l in
  same_odo s s' /\ outs = [] /\ last_imu s' = last_imu s /\ sent s' = sent s /\
  running_imu s' = if existsb (fun p => in_axes (raw_type (fst p))) rest then -1 else running_imu s.
Proof.
  induction rest as [|[d ts] rest IH]; intros s l H1 H2; [cbn [raw_loop]; repeat split|].
  cbn [raw_loop existsb fst]. cbv zeta. rewrite raw_type_eq, item_val_eq, is_imu_eq.
  set (s0 := if raw_type d =? 12 then _ else s).
  assert (RI : running_imu s0 = running_imu s /\ last_imu s0 = last_imu s /\ same_odo s s0 /\ sent s0 = sent s) by (unfold s0; destruct (raw_type d =? 12); repeat split).
  clearbody s0. destruct RI as (RI1 & RI2 & RI3 & RI4).
  destruct (in_axes (raw_type d)) eqn:AX; cbn [negb orb].
  - replace (negb (running_imu s0 =? -1) && (1000 <? (msss - last_imu s0) mod 2 ^ 32)) with true by (rewrite RI1, RI2; lia).
    cbn [running_imu last_imu sent]. split; [exact RI3|]. auto.
  - specialize (IH s0 l ltac:(congruence) ltac:(rewrite RI2; exact H2)). destruct (raw_loop msss ts0 rest s0 l) as [s' outs].
    destruct IH as (I1 & I2 & I3 & I4 & I5). rewrite RI1 in I5. split; [unfold same_odo in *; intuition congruence|]. split; [exact I2|]. split; [congruence|]. split; [congruence|]. exact I5.
Qed.
Definition imu_count (l : list esf_out) : Z := len (filter is_imu_raw l).
Lemma aux_ok_app : forall l1 n l2, aux_ok n l1 -> aux_ok (n + imu_count l1) l2 -> aux_ok n (l1 ++ l2).
Proof.
  assert (G : forall m l1 n l2, (length l1 <= m)%nat -> aux_ok n l1 -> aux_ok (n + imu_count l1) l2 -> aux_ok n (l1 ++ l2)).
  { induction m as [|m IH]; intros [|x l1] n l2 L H1 H2; try (cbn [length] in L; lia).
    - unfold imu_count in H2. cbn [filter] in H2. change (len []) with 0 in H2. rewrite Z.add_0_r in H2. exact H2.
    - unfold imu_count in H2. cbn [filter] in H2. change (len []) with 0 in H2. rewrite Z.add_0_r in H2. exact H2.
    - cbn [length] in L. destruct x; cbn [aux_ok app] in *; unfold imu_count in H2; cbn [filter is_imu_raw] in H2.
      + apply IH; [lia|exact H1|exact H2].
      + apply IH; [lia|exact H1|exact H2].
      + destruct l1 as [|[ | | | ] l1]; try contradiction. cbn [length] in L. cbn [app]. split; [apply H1|]. cbn [filter is_imu_raw] in H2. rewrite len_cons in H2.
        apply IH; [lia|apply H1|]. unfold imu_count. replace (n + 1 + len (filter is_imu_raw l1)) with (n + (1 + len (filter is_imu_raw l1))) by lia. exact H2.
      + split; [apply H1|]. rewrite len_cons in H2. apply IH; [lia|apply H1|]. unfold imu_count. replace (n + 1 + len (filter is_imu_raw l1)) with (n + (1 + len (filter is_imu_raw l1))) by lia. exact H2. }
  intros l1 n l2. apply (G (length l1)). lia.
Qed.
Lemma aux_ok_odo l : forall n, filter is_imu_raw l = [] -> Forall (fun o => is_odo_out o = true) l -> aux_ok n l.
Proof. induction l as [|x l IH]; intros n H F; [exact I|]. inversion F; subst. destruct x; try discriminate; cbn [aux_ok]; apply IH; assumption. Qed.
Lemma raw_loop_aux msss ts0 : forall rest s l N, sent s mod 20 = N mod 20 ->
  let '(s', outs) := raw_loop msss ts0 rest s l in aux_ok N outs /\ sent s' mod 20 = (N + imu_count outs) mod 20.
Proof.
  induction rest as [|[d ts] rest IH]; intros s l N HN.
  - cbn [raw_loop]. split; [exact I|]. unfold imu_count. cbn [filter]. change (len []) with 0. rewrite Z.add_0_r. exact HN.
  - cbn [raw_loop]. cbv zeta. rewrite raw_type_eq, item_val_eq, is_imu_eq.
    set (s0 := if raw_type d =? 12 then _ else s).
    assert (HN0 : sent s0 mod 20 = N mod 20) by (unfold s0; destruct (raw_type d =? 12); exact HN). clearbody s0.
    assert (Z0 : imu_count [] = 0) by reflexivity.
    destruct (negb (in_axes (raw_type d))); [apply IH; exact HN0|].
    destruct (negb (running_imu s0 =? -1) && (1000 <? (msss - last_imu s0) mod 2 ^ 32)); [cbn [sent]; rewrite Z0, Z.add_0_r; split; [exact I|exact HN0]|].
    cbn [sent temp running_odo last_odo last_tick out_tick running_imu last_imu].
    set (rc := set_at (recv l) (raw_type d) (recv l (raw_type d) + 1)).
    destruct (negb (rc (raw_type d) =? cur l + 1)); [cbn [sent]; rewrite Z0, Z.add_0_r; split; [exact I|exact HN0]|].
    destruct (complete rc (cur l)).
    + set (s2 := mk_esf _ _ _ _ _ _ _ _). set (l2 := mk_imu_loop _ _ _).
      specialize (IH s2 l2 (N + 1)). assert (HN2 : sent s2 mod 20 = (N + 1) mod 20) by (unfold s2; cbn [sent]; destruct (Z.eqb_spec (sent s0 mod 20) 0); lia).
      specialize (IH HN2). destruct (raw_loop msss ts0 rest s2 l2) as [s3 outs]. destruct IH as [I1 I2].
      destruct (Z.eqb_spec (sent s0 mod 20) 0); cbn [app aux_ok]; (split; [split; [lia|exact I1]|]); unfold imu_count in *; cbn [filter is_imu_raw]; rewrite len_cons, I2; f_equal; lia.
    + set (s1 := mk_esf _ _ _ _ _ _ _ _). set (l2 := mk_imu_loop _ _ _). apply (IH s1 l2 N). exact HN0.
Qed.
Lemma expected_odo_imu T l : filter is_imu_raw (expected_odo T l) = [] /\ Forall (fun o => is_odo_out o = true) (expected_odo T l).
Proof.
  revert T. induction l as [|[t d] l IH]; intros T; [split; [reflexivity|constructor]|]. cbn [expected_odo].
  destruct (item_type d =? 11); cbn [filter is_imu_raw]; (split; [apply IH|constructor; [reflexivity|apply IH]]).
Qed.
Lemma imu_items_exists l : existsb (fun p => in_axes (raw_type (fst p))) l = match imu_items l with [] => false | _ => true end.
Proof.
  unfold imu_items. induction l as [|x l IH]; [reflexivity|]. cbn [existsb filter]. fold (in_axes (raw_type (fst x))). destruct (in_axes (raw_type (fst x))); [reflexivity|exact IH].
Qed.

(** the invariant over histories *)
Definition odo_rel (p : option Z) (s : esf_state) : Prop :=
  match p with None => running_odo s = -1 | Some t => running_odo s = t /\ last_odo s = t /\ 0 <= t < 2 ^ 32 end.
Definition imu_rel (c : option Z) (s : esf_state) : Prop :=
  match c with None => running_imu s = -1 | Some t => running_imu s = t /\ 0 <= t /\ (last_imu s = t mod 2 ^ 32) end.
Definition wf (x : esf_meas + esf_raw) : Prop :=
  match x with inl m => 0 <= tag m < 2 ^ 32 | inr r => 0 <= er_msss r < 2 ^ 32 end.
Lemma filter_all {A} (f : A -> bool) l : Forall (fun x => f x = true) l -> filter f l = l.
Proof. induction 1 as [|x l H F IH]; [reflexivity|]. cbn [filter]. rewrite H, IH. reflexivity. Qed.
(** one ESF-RAW message *)
Lemma raw_step s c m : 0 <= er_msss m < 2 ^ 32 -> imu_rel c s ->
  let '(s', outs) := handle_esf_raw s m in
  same_odo s s' /\ filter is_odo_out outs = [] /\ imu_rel (clock_step c m) s' /\
  (clock_step c m = None -> filter is_imu_raw outs = []) /\
  (forall R, clock_step c m = Some R -> 
    (forall k o, nth_error (filter is_imu_raw outs) k = Some o -> kth_imu R (snd (znth (0, 0) 0 (er_data m))) (er_data m) k o) /\
    ((forall n t u, In t axes -> In u axes -> cnt t (firstn n (er_data m)) <= cnt u (firstn n (er_data m)) + 1) ->
     exists t, In t axes /\ cnt t (er_data m) = len (filter is_imu_raw outs) /\ (forall u, In u axes -> len (filter is_imu_raw outs) <= cnt u (er_data m)))).
Proof.
  intros Hm Hc. unfold handle_esf_raw. set (ts0 := snd (znth (0, 0) 0 (er_data m))).
  set (l0 := mk_imu_loop (fun _ => 0) 0 (fun _ => 0)).
  assert (D : (exists R, clock_ok (er_msss m) R s /\ (imu_items (er_data m) = [] /\ clock_step c m = c \/ imu_items (er_data m) <> [] /\ clock_step c m = Some R)) \/
              (running_imu s <> -1 /\ 1000 < (er_msss m - last_imu s) mod 2 ^ 32 /\ clock_step c m = if existsb (fun p => in_axes (raw_type (fst p))) (er_data m) then None else c)).
  { unfold clock_step. rewrite imu_items_exists. destruct c as [t|].
    - destruct Hc as (H1 & H2 & H3). set (dd := (er_msss m - t) mod 2 ^ 32). assert (DD : (er_msss m - last_imu s) mod 2 ^ 32 = dd) by (unfold dd; rewrite H3; lia).
      cbv zeta. fold dd. destruct (Z.leb_spec dd 1000).
      + left. exists (t + dd). split; [|destruct (imu_items (er_data m)); [left|right]; split; congruence].
        assert (0 <= dd) by (unfold dd; lia). split; [lia|]. right. rewrite DD, H1. split; [lia|]. split; lia.
      + right. rewrite DD. split; [lia|]. split; [lia|]. destruct (imu_items (er_data m)); reflexivity.
    - left. exists (er_msss m). split; [|destruct (imu_items (er_data m)); [left|right]; split; congruence].
      split; [lia|]. left. split; [exact Hc|reflexivity]. }
  destruct D as [(R & Ck & CS)|(G1 & G2 & CS)].
  - pose proof (raw_loop_outputs (er_msss m) ts0 R (er_data m) (er_data m) [] s l0 eq_refl loop_inv_init Ck) as P.
    destruct (raw_loop (er_msss m) ts0 (er_data m) s l0) as [s' outs]. destruct P as (P1 & P2 & P3 & P4 & P5). cbn [cur l0] in P3, P5.
    split; [exact P1|]. split; [exact P2|]. rewrite imu_items_exists in P4. 
    assert (NOI : imu_items (er_data m) = [] -> filter is_imu_raw outs = []).
    { intros E. destruct (filter is_imu_raw outs) as [|o r] eqn:F; [reflexivity|]. exfalso. specialize (P3 0%nat o eq_refl). destruct P3 as (pre & d & ts & post & E1 & _ & E3 & _).
      assert (In (d, ts) (imu_items (er_data m))) as X; [|rewrite E in X; destruct X].
      unfold imu_items. apply filter_In. split; [rewrite E1; apply in_or_app; right; left; reflexivity|]. cbn [fst]. apply in_axes_spec. exact E3. }
    destruct CS as [[CS1 CS2]|[CS1 CS2]].
    + rewrite CS1 in P4. rewrite CS2. split; [|split].
      * destruct c; unfold imu_rel in *; rewrite (proj1 P4); [rewrite (proj2 P4)|]; exact Hc.
      * intros _. apply NOI. exact CS1.
      * intros R' ER. subst c. rewrite (NOI CS1). split; [intros [|k] o H; discriminate|]. intros B. specialize (P5 B). rewrite (NOI CS1) in P5. exact P5.
    + destruct (imu_items (er_data m)) eqn:E; [congruence|]. rewrite CS2. split; [|split].
      * unfold imu_rel. split; [apply P4|]. split; [apply Ck|]. rewrite (proj2 P4). destruct Ck as [_ [[C1 C2]|(C1 & C2 & C3)]].
        -- rewrite C2. rewrite Z.mod_small by lia. reflexivity.
        -- destruct c as [t|]; [|unfold imu_rel in Hc; congruence]. destruct Hc as (H1 & H2 & H3). rewrite C3, H1, H3. lia.
      * discriminate.
      * intros R' ER. injection ER as <-. split; [exact P3|]. exact P5.
  - pose proof (raw_loop_gap (er_msss m) ts0 (er_data m) s l0 G1 G2) as P.
    destruct (raw_loop (er_msss m) ts0 (er_data m) s l0) as [s' outs]. destruct P as (P1 & P2 & P3 & P4 & P5). subst outs. cbn [filter].
    split; [exact P1|]. split; [reflexivity|]. rewrite CS. destruct (existsb _ (er_data m)) eqn:E.
    + split; [exact P5|]. split; [reflexivity|]. discriminate.
    + split; [destruct c; unfold imu_rel in *; rewrite P5, ?P3; exact Hc|]. split; [reflexivity|]. intros R ER. split; [intros [|k] o H; discriminate|].
      intros _. rewrite imu_items_exists in E. exists 16. change (len []) with 0. split; [left; reflexivity|]. split; [|intros; unfold cnt; apply len_nonneg].
      destruct (imu_items (er_data m)) eqn:E2; [|discriminate]. unfold cnt, axis. rewrite len_map.
      replace (filter (fun p => raw_type (fst p) =? 16) (er_data m)) with (@nil (Z * Z)); [reflexivity|].
      clear - E2. unfold imu_items in E2. induction (er_data m) as [|x r IH]; [reflexivity|]. cbn [filter] in *. fold (in_axes (raw_type (fst x))) in E2.
      destruct (in_axes (raw_type (fst x))) eqn:A; [discriminate|]. destruct (Z.eqb_spec (raw_type (fst x)) 16) as [X|]; [rewrite X in A; discriminate|]. apply IH. exact E2.
Qed.
