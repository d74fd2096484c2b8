From Verif Require Import Base TimeTruth_model.

Definition tt_abs (c : tt) : Z := t_wn c * WEEK_T + t_tow c.
Definition gt_abs (t : gt) : Z := a_wn t * WEEK_T + a_tow t.

(** float rounding is monotone *)
Lemma round24_bounds x : 0 < x -> 2 ^ Z.log2 x <= round24 x <= 2 ^ (Z.log2 x + 1).
Proof.
  intros Hx. unfold round24. pose proof (Z.log2_spec x Hx) as [L U]. set (l := Z.log2 x) in *.
  destruct (Z.leb_spec (l - 23) 0) as [H|H]. { rewrite Z.pow_succ_r in U by (unfold l; apply Z.log2_nonneg). replace (l + 1) with (Z.succ l) by lia. rewrite Z.pow_succ_r by (unfold l; apply Z.log2_nonneg). lia. }
  set (e := l - 23) in *. assert (He : 0 < 2 ^ e) by (apply Z.pow_pos_nonneg; lia).
  assert (P : 2 ^ l = 2 ^ 23 * 2 ^ e) by (rewrite <- Z.pow_add_r by lia; f_equal; lia).
  assert (P' : 2 ^ (l + 1) = 2 ^ 24 * 2 ^ e) by (rewrite <- Z.pow_add_r by lia; f_equal; lia).
  replace (Z.succ l) with (l + 1) in U by lia.
  assert (Q : 2 ^ 23 <= x / 2 ^ e < 2 ^ 24).
  { split; [apply Z.div_le_lower_bound; lia|apply Z.div_lt_upper_bound; lia]. }
  rewrite P, P'. destruct (_ <? _); [nia|]. destruct (_ && _); nia.
Qed.
Lemma round24_mono_same e a b : 0 < e -> 0 <= a <= b ->
  forall ra rb,
  ra = (if a mod 2 ^ e <? 2 ^ (e - 1) then a / 2 ^ e * 2 ^ e else if (a mod 2 ^ e =? 2 ^ (e - 1)) && Z.even (a / 2 ^ e) then a / 2 ^ e * 2 ^ e else (a / 2 ^ e + 1) * 2 ^ e) ->
  rb = (if b mod 2 ^ e <? 2 ^ (e - 1) then b / 2 ^ e * 2 ^ e else if (b mod 2 ^ e =? 2 ^ (e - 1)) && Z.even (b / 2 ^ e) then b / 2 ^ e * 2 ^ e else (b / 2 ^ e + 1) * 2 ^ e) ->
  ra <= rb.
Proof.
  intros He Hab ra rb -> ->. assert (Hp : 0 < 2 ^ e) by (apply Z.pow_pos_nonneg; lia).
  pose proof (Z.div_mod a (2 ^ e) ltac:(lia)) as Da. pose proof (Z.div_mod b (2 ^ e) ltac:(lia)) as Db.
  pose proof (Z.mod_pos_bound a (2 ^ e) Hp) as Ba. pose proof (Z.mod_pos_bound b (2 ^ e) Hp) as Bb.
  pose proof (Z.div_le_mono a b (2 ^ e) Hp ltac:(lia)) as Hq.
  set (qa := a / 2 ^ e) in *. set (qb := b / 2 ^ e) in *. set (xa := a mod 2 ^ e) in *. set (xb := b mod 2 ^ e) in *.
  assert (qa = qb \/ qa + 1 <= qb) as [E|E] by lia.
  - assert (xa <= xb) by nia. rewrite <- E.
    destruct (Z.ltb_spec xa (2 ^ (e - 1))); destruct (Z.ltb_spec xb (2 ^ (e - 1))); try lia;
    try (destruct (_ && _); nia).
    destruct (Z.eqb_spec xa (2 ^ (e - 1))); destruct (Z.eqb_spec xb (2 ^ (e - 1))); destruct (Z.even qa); cbn [andb]; nia.
  - destruct (_ <? _); destruct (_ <? _); repeat destruct (_ && _); nia.
Qed.
Lemma round24_mono a b : 0 <= a <= b -> round24 a <= round24 b.
Proof.
  intros H. destruct (Z.eq_dec a 0) as [->|Ha].
  { change (round24 0) with 0. destruct (Z.eq_dec b 0) as [->|Hb]; [reflexivity|]. pose proof (round24_bounds b ltac:(lia)).
    pose proof (Z.pow_pos_nonneg 2 (Z.log2 b) ltac:(lia) (Z.log2_nonneg b)). lia. }
  pose proof (Z.log2_le_mono a b ltac:(lia)) as L. destruct (Z.eq_dec (Z.log2 a) (Z.log2 b)) as [E|E].
  - unfold round24. rewrite E. destruct (Z.leb_spec (Z.log2 b - 23) 0); [lia|].
    eapply (round24_mono_same (Z.log2 b - 23) a b); [lia|lia|reflexivity|reflexivity].
  - pose proof (round24_bounds a ltac:(lia)). pose proof (round24_bounds b ltac:(lia)).
    pose proof (Z.pow_le_mono_r 2 (Z.log2 a + 1) (Z.log2 b) ltac:(lia) ltac:(lia)). lia.
Qed.
Lemma round24_exact x : 0 <= x < 2 ^ 24 -> round24 x = x.
Proof.
  intros H. unfold round24. destruct (Z.leb_spec (Z.log2 x - 23) 0) as [_|C]; [reflexivity|].
  destruct (Z.eq_dec x 0) as [->|N]; [cbn in C; lia|]. pose proof (Z.log2_lt_pow2 x 24 ltac:(lia)) as [A _]. specialize (A ltac:(lia)). lia.
Qed.
Lemma round24_scale k x : 0 <= k -> 0 <= x -> round24 (x * 2 ^ k) = round24 x * 2 ^ k \/ x < 2 ^ 24 /\ round24 (x * 2 ^ k) = x * 2 ^ k.
Proof.
  intros Hk Hx. destruct (Z.lt_ge_cases x (2 ^ 24)) as [H|H].
  - right. split; [exact H|]. destruct (Z.eq_dec x 0) as [->|N]; [reflexivity|].
    unfold round24. assert (E : Z.log2 (x * 2 ^ k) = k + Z.log2 x) by (apply Z.log2_mul_pow2; lia). rewrite E.
    destruct (Z.leb_spec (k + Z.log2 x - 23) 0); [reflexivity|].
    assert (L : Z.log2 x < 24) by (apply Z.log2_lt_pow2; lia).
    set (e := k + Z.log2 x - 23) in *. assert (Hd : (x * 2 ^ k) mod 2 ^ e = 0).
    { replace k with ((k - e) + e) by lia. rewrite Z.pow_add_r by lia. rewrite Z.mul_assoc. apply Z.mod_mul. apply Z.pow_nonzero; lia. }
    rewrite Hd. destruct (Z.ltb_spec 0 (2 ^ (e - 1))) as [_|C].
    + rewrite Z.mul_comm. symmetry. apply Z.div_exact; [apply Z.pow_nonzero; lia|exact Hd].
    + pose proof (Z.pow_pos_nonneg 2 (e - 1) ltac:(lia) ltac:(lia)). lia.
  - left. unfold round24. assert (E : Z.log2 (x * 2 ^ k) = k + Z.log2 x) by (apply Z.log2_mul_pow2; lia). rewrite E.
    assert (L : 24 <= Z.log2 x) by (apply Z.log2_le_pow2; lia).
    destruct (Z.leb_spec (k + Z.log2 x - 23) 0); [lia|]. destruct (Z.leb_spec (Z.log2 x - 23) 0); [lia|].
    set (e := Z.log2 x - 23) in *. replace (k + Z.log2 x - 23) with (e + k) by lia.
    rewrite Z.pow_add_r by lia. pose proof (Z.pow_pos_nonneg 2 k ltac:(lia) Hk) as Pk. pose proof (Z.pow_pos_nonneg 2 e ltac:(lia) ltac:(lia)) as Pe.
    rewrite Z.div_mul_cancel_r by lia. rewrite Z.mul_mod_distr_r by lia.
    replace (2 ^ (e + k - 1)) with (2 ^ (e - 1) * 2 ^ k) by (rewrite <- Z.pow_add_r by lia; f_equal; lia).
    destruct (Z.ltb_spec (x mod 2 ^ e * 2 ^ k) (2 ^ (e - 1) * 2 ^ k)); destruct (Z.ltb_spec (x mod 2 ^ e) (2 ^ (e - 1))); try nia.
    destruct (Z.eqb_spec (x mod 2 ^ e * 2 ^ k) (2 ^ (e - 1) * 2 ^ k)); destruct (Z.eqb_spec (x mod 2 ^ e) (2 ^ (e - 1))); try nia;
      cbn [andb]; try destruct (Z.even _); ring.
Qed.
(** whole seconds (all ephemeris times) are stored exactly *)
Lemma round24_seconds s : 0 <= s < 604800 -> round24 (s * TICKS) = s * TICKS.
Proof.
  intros H. unfold TICKS. destruct (round24_scale 33 s ltac:(lia) ltac:(lia)) as [E|[_ E]]; [|exact E].
  rewrite E. rewrite round24_exact by lia. reflexivity.
Qed.

Lemma round24_multiple q k : 0 <= k -> 0 <= q <= 2 ^ 24 -> round24 (q * 2 ^ k) = q * 2 ^ k.
Proof.
  intros Hk Hq. destruct (Z.eq_dec q (2 ^ 24)) as [->|N].
  - rewrite <- Z.pow_add_r by lia. replace (2 ^ (24 + k)) with (1 * 2 ^ (24 + k)) by ring.
    destruct (round24_scale (24 + k) 1 ltac:(lia) ltac:(lia)) as [E|[_ E]]; [|exact E]. rewrite E. reflexivity.
  - destruct (round24_scale k q Hk ltac:(lia)) as [E|[_ E]]; [|exact E]. rewrite E, round24_exact by lia. reflexivity.
Qed.
Lemma round24_idem x : 0 <= x -> round24 (round24 x) = round24 x.
Proof.
  intros Hx. destruct (Z.eq_dec x 0) as [->|N]; [reflexivity|].
  destruct (Z.le_gt_cases (Z.log2 x - 23) 0) as [H|H].
  - assert (E : round24 x = x) by (unfold round24; destruct (Z.leb_spec (Z.log2 x - 23) 0); [reflexivity|lia]). rewrite !E. reflexivity.
  - set (e := Z.log2 x - 23) in *. assert (He : 0 < 2 ^ e) by (apply Z.pow_pos_nonneg; lia).
    pose proof (Z.log2_spec x ltac:(lia)) as [L U].
    assert (P : 2 ^ Z.succ (Z.log2 x) = 2 ^ 24 * 2 ^ e) by (rewrite <- Z.pow_add_r by lia; f_equal; lia).
    assert (Q : 0 <= x / 2 ^ e < 2 ^ 24) by (split; [apply Z.div_pos; lia|apply Z.div_lt_upper_bound; lia]).
    assert (exists q, round24 x = q * 2 ^ e /\ 0 <= q <= 2 ^ 24) as (q & -> & Hq).
    { unfold round24. fold e. destruct (Z.leb_spec e 0); [lia|]. destruct (_ <? _); [exists (x / 2 ^ e); split; [reflexivity|lia]|].
      destruct (_ && _); [exists (x / 2 ^ e); split; [reflexivity|lia]|exists (x / 2 ^ e + 1); split; [reflexivity|lia]]. }
    apply round24_multiple; lia.
Qed.

(** ** one action *)
Definition acceptable (ref : Z) (s : source) (t : gt) : Prop := s <> OTHER_SOURCE /\ gt_valid t = true /\ ref <= a_wn t.
Definition stored (t : gt) : tt := mktt (a_wn t) (round24 (a_tow t)) true.
Definition args (p : pc) : source * gt := match p with Start s t | Loaded s t _ | Done s t _ => (s, t) end.
(** program counters that a call can be at *)
Definition pc_ok (ref : Z) (p : pc) : Prop :=
  match p with Loaded _ t _ => gt_valid t = true /\ ref <= a_wn t | _ => True end.

Lemma tt_eqb_eq a b : tt_eqb a b = true -> a = b.
Proof.
  destruct a, b. unfold tt_eqb. cbn. rewrite !andb_true_iff, !Z.eqb_eq, Bool.eqb_true_iff. intros [[-> ->] ->]. reflexivity.
Qed.
Lemma act_args ref sh p : args (snd (act ref sh p)) = args p.
Proof.
  destruct p as [s t|s t c|s t r]; cbn; [destruct (negb _); [|destruct (_ <? _)]; reflexivity| |reflexivity].
  destruct (next s t c); [|reflexivity]. destruct (tt_eqb sh c); reflexivity.
Qed.
Lemma act_ok ref sh p : pc_ok ref p -> pc_ok ref (snd (act ref sh p)).
Proof.
  destruct p as [s t|s t c|s t r]; cbn; auto.
  - intros _. destruct (gt_valid t) eqn:V; cbn; [|exact I]. destruct (Z.ltb_spec (a_wn t) ref); cbn; auto.
  - intros H. destruct (next s t c); cbn; [|exact I]. destruct (tt_eqb sh c); cbn; auto.
Qed.
Lemma next_some s t c n : next s t c = Some n -> s <> OTHER_SOURCE /\ n = stored t /\ (t_solved c = true -> 0 < tdiff t c).
Proof.
  unfold next. destruct s; try discriminate; (destruct (t_solved c) eqn:S; [destruct (Z.leb_spec (tdiff t c) 0); [discriminate|]|]);
    intros E; injection E as <-; (split; [discriminate|]); (split; [reflexivity|]); intros; try discriminate; assumption.
Qed.
(** what an action does to the shared cell: nothing, or install an acceptable, strictly newer time; and only in the latter case does the call return true *)
Lemma act_effect ref sh p sh' p' : pc_ok ref p -> act ref sh p = (sh', p') ->
  (sh' = sh /\ (forall s t, p' = Done s t true -> p = Done s t true)) \/
  (exists s t, args p = (s, t) /\ p' = Done s t true /\ acceptable ref s t /\ sh' = stored t /\ (t_solved sh = true -> tt_abs sh < gt_abs t)).
Proof.
  intros Hp E. destruct p as [s t|s t c|s t r]; cbn in E.
  - left. destruct (negb (gt_valid t)); [|destruct (_ <? _)]; injection E as <- <-; (split; [reflexivity|discriminate]).
  - destruct (next s t c) as [n|] eqn:N; [|injection E as <- <-; left; split; [reflexivity|discriminate]].
    destruct (tt_eqb sh c) eqn:Q; injection E as <- <-; [|left; split; [reflexivity|discriminate]]. right.
    apply tt_eqb_eq in Q. subst c. destruct (next_some _ _ _ _ N) as (S & -> & D). exists s, t. split; [reflexivity|]. split; [reflexivity|].
    destruct Hp. split; [repeat split; assumption|]. split; [reflexivity|]. intros S'. specialize (D S'). unfold tdiff, tt_abs, gt_abs in *. lia.
  - injection E as <- <-. left. split; [reflexivity|]. intros. assumption.
Qed.

(** ** executions *)
Definition cell_ok (c : tt) : Prop := t_solved c = true -> exists t, gt_valid t = true /\ c = stored t.
Lemma newer sh t : gt_valid t = true -> cell_ok sh -> t_solved sh = true -> tt_abs sh < gt_abs t -> tt_abs sh <= tt_abs (stored t).
Proof.
  intros V C S H. destruct (C S) as (t0 & V0 & ->). unfold stored, tt_abs, gt_abs in *. cbn [t_wn t_tow] in *.
  unfold gt_valid in *. rewrite !andb_true_iff, !Z.leb_le, Z.ltb_lt in V, V0.
  assert (RW : forall x, 0 <= x < WEEK_T -> 0 <= round24 x <= WEEK_T).
  { intros x Hx. split.
    - change 0 with (round24 0). apply round24_mono. lia.
    - replace WEEK_T with (round24 WEEK_T) at 1 by reflexivity. apply round24_mono. lia. }
  pose proof (RW (a_tow t) ltac:(lia)). pose proof (RW (a_tow t0) ltac:(lia)).
  assert (a_wn t0 < a_wn t \/ a_wn t0 = a_wn t \/ a_wn t < a_wn t0) as [L|[L|L]] by lia.
  - nia.
  - rewrite L in *. assert (Hlt : round24 (a_tow t0) < a_tow t) by lia.
    pose proof (round24_mono (a_tow t0) (a_tow t)) as M. destruct (Z.le_gt_cases (a_tow t0) (a_tow t)); [specialize (M ltac:(lia)); lia|].
    pose proof (round24_mono (round24 (a_tow t0)) (a_tow t) ltac:(lia)) as M'. rewrite round24_idem in M' by lia. lia.
  - nia.
Qed.

Lemma cstep_cases ref c i : cstep ref c i = c \/
  exists p, nth_error (snd c) i = Some p /\
    fst (cstep ref c i) = fst (act ref (fst c) p) /\
    snd (cstep ref c i) = firstn i (snd c) ++ snd (act ref (fst c) p) :: skipn (S i) (snd c).
Proof.
  unfold cstep. destruct (nth_error (snd c) i) as [p|] eqn:E; [|left; reflexivity]. right. exists p. split; [reflexivity|].
  destruct (act ref (fst c) p); split; reflexivity.
Qed.
Lemma split_nth {A} (l : list A) i p : nth_error l i = Some p -> l = firstn i l ++ p :: skipn (S i) l.
Proof.
  revert i. induction l as [|a l IH]; intros [|i] H; cbn in *; try discriminate; [injection H as ->; reflexivity|].
  f_equal. apply IH. exact H.
Qed.

(** a call's relation to the shared cell *)
Definition min_abs (t : gt) : Z := Z.min (gt_abs t) (tt_abs (stored t)).
Definition pc_inv (ref : Z) (sh : tt) (p : pc) : Prop :=
  match p with
  | Start _ _ => True
  | Loaded s t cur => gt_valid t = true /\ ref <= a_wn t /\ (t_solved cur = true -> t_solved sh = true /\ tt_abs cur <= tt_abs sh)
  | Done s t r => (acceptable ref s t -> t_solved sh = true /\ min_abs t <= tt_abs sh) /\ (r = true -> acceptable ref s t)
  end.
Definition le_cell (a b : tt) : Prop := t_solved a = true -> t_solved b = true /\ tt_abs a <= tt_abs b.
Lemma le_cell_refl a : le_cell a a.
Proof. intros H. split; [exact H|lia]. Qed.
Lemma le_cell_trans a b c : le_cell a b -> le_cell b c -> le_cell a c.
Proof. intros H1 H2 S. destruct (H1 S) as [S' L]. destruct (H2 S') as [S'' L']. split; [exact S''|lia]. Qed.
Lemma pc_inv_mono ref a b p : le_cell a b -> pc_inv ref a p -> pc_inv ref b p.
Proof.
  intros L. destruct p as [s t|s t c|s t r]; cbn; [auto| |].
  - intros (V & R & H). split; [exact V|]. split; [exact R|]. intros S. destruct (H S) as [S1 L1]. destruct (L S1) as [S2 L2]. split; [exact S2|lia].
  - intros [H1 H2]. split; [|exact H2]. intros A. destruct (H1 A) as [S1 L1]. destruct (L S1) as [S2 L2]. split; [exact S2|lia].
Qed.
Lemma act_le ref sh p : cell_ok sh -> pc_inv ref sh p -> cell_ok (fst (act ref sh p)) /\ le_cell sh (fst (act ref sh p)) /\ pc_inv ref (fst (act ref sh p)) (snd (act ref sh p)).
Proof.
  intros C P. destruct p as [s t|s t c|s t r]; cbn [act].
  - destruct (gt_valid t) eqn:V; cbn [negb].
    + destruct (Z.ltb_spec (a_wn t) ref) as [H|H]; cbn [fst snd].
      * split; [exact C|]. split; [apply le_cell_refl|]. cbn. split; [|discriminate]. intros (_ & _ & H'). lia.
      * split; [exact C|]. split; [apply le_cell_refl|]. cbn. split; [exact V|]. split; [exact H|]. intros S. split; [exact S|lia].
    + cbn [fst snd]. split; [exact C|]. split; [apply le_cell_refl|]. cbn. split; [|discriminate]. intros (_ & H' & _). congruence.
  - cbn in P. destruct P as (V & R & P). destruct (next s t c) as [n|] eqn:N.
    + destruct (next_some _ _ _ _ N) as (S & -> & D). destruct (tt_eqb sh c) eqn:Q; cbn [fst snd].
      * apply tt_eqb_eq in Q. subst c. split; [intros _; exists t; split; [exact V|reflexivity]|]. split.
        -- intros S'. split; [reflexivity|]. apply newer; [exact V|exact C|exact S'|]. specialize (D S'). unfold tdiff, tt_abs, gt_abs in *. lia.
        -- cbn [pc_inv]. split; [intros _; split; [reflexivity|unfold min_abs; lia]|]. intros _. repeat split; assumption.
      * split; [exact C|]. split; [apply le_cell_refl|]. cbn. split; [exact V|]. split; [exact R|]. intros S'. split; [exact S'|lia].
    + cbn [fst snd]. split; [exact C|]. split; [apply le_cell_refl|]. cbn. split; [|discriminate]. intros (S & _ & _).
      assert (t_solved c = true /\ tdiff t c <= 0) as [S' D].
      { unfold next in N. destruct s; try congruence; (destruct (t_solved c); [|discriminate]); (destruct (Z.leb_spec (tdiff t c) 0); [|discriminate]); auto. }
      destruct (P S') as [S1 L1]. split; [exact S1|]. unfold min_abs. unfold tdiff, tt_abs, gt_abs in *. lia.
  - cbn [fst snd]. split; [exact C|]. split; [apply le_cell_refl|exact P].
Qed.

Definition cinv (ref : Z) (c : config) : Prop := cell_ok (fst c) /\ Forall (pc_inv ref (fst c)) (snd c).
Lemma cstep_inv ref c i : cinv ref c -> cinv ref (cstep ref c i) /\ le_cell (fst c) (fst (cstep ref c i)).
Proof.
  intros [C F]. destruct (cstep_cases ref c i) as [->|(p & E & E1 & E2)]; [split; [split; assumption|apply le_cell_refl]|].
  pose proof (split_nth _ _ _ E) as Sp. rewrite Sp in F. apply Forall_app in F. destruct F as [F1 F2]. inversion_clear F2 as [|? ? Fp F3].
  destruct (act_le ref (fst c) p C Fp) as (C' & L & P'). unfold cinv. rewrite E1, E2. split; [|exact L]. split; [exact C'|].
  apply Forall_app. split; [|constructor; [exact P'|]]; (eapply Forall_impl; [intros q; apply pc_inv_mono; exact L|assumption]).
Qed.
Lemma run_app ref c s1 s2 : run ref c (s1 ++ s2) = run ref (run ref c s1) s2.
Proof. apply fold_left_app. Qed.
Lemma run_inv ref s : forall c, cinv ref c -> cinv ref (run ref c s) /\ le_cell (fst c) (fst (run ref c s)).
Proof.
  induction s as [|i s IH]; intros c H; [split; [exact H|apply le_cell_refl]|]. cbn [run fold_left].
  destruct (cstep_inv ref c i H) as [H1 L1]. destruct (IH _ H1) as [H2 L2]. split; [exact H2|]. eapply le_cell_trans; eassumption.
Qed.
Definition start (calls : list (source * gt)) : list pc := map (fun '(s, t) => Start s t) calls.
Lemma start_inv ref calls : cinv ref (tt_init, start calls).
Proof.
  split; [intros H; discriminate|]. apply Forall_forall. intros p H. unfold start in H. cbn [snd] in H. apply in_map_iff in H.
  destruct H as ([s t] & <- & _). exact I.
Qed.
Lemma cstep_args ref c i : map args (snd (cstep ref c i)) = map args (snd c).
Proof.
  destruct (cstep_cases ref c i) as [->|(p & E & _ & ->)]; [reflexivity|]. rewrite (split_nth _ _ _ E) at 3.
  rewrite !map_app. cbn [map]. rewrite act_args. reflexivity.
Qed.
Lemma run_args ref s : forall c, map args (snd (run ref c s)) = map args (snd c).
Proof. induction s as [|i s IH]; intros c; [reflexivity|]. change (run ref c (i :: s)) with (run ref (cstep ref c i) s). rewrite IH. apply cstep_args. Qed.
Lemma start_args calls : map args (start calls) = calls.
Proof. unfold start. rewrite map_map. rewrite <- (map_id calls) at 2. apply map_ext. intros [s t]. reflexivity. Qed.
(** every action either leaves the cell alone or is the successful exchange of one call *)
Lemma cstep_effect ref c i : cinv ref c ->
  (fst (cstep ref c i) = fst c /\ forall s t, In (Done s t true) (snd (cstep ref c i)) -> In (Done s t true) (snd c)) \/
  exists s t, nth_error (map args (snd c)) i = Some (s, t) /\ acceptable ref s t /\ fst (cstep ref c i) = stored t /\
    nth_error (snd (cstep ref c i)) i = Some (Done s t true) /\ (t_solved (fst c) = true -> tt_abs (fst c) < gt_abs t) /\
    (forall s' t', In (Done s' t' true) (snd (cstep ref c i)) -> (s', t') = (s, t) \/ In (Done s' t' true) (snd c)).
Proof.
  intros [C F]. destruct (cstep_cases ref c i) as [->|(p & E & E1 & E2)]; [left; auto|].
  assert (Hp : pc_inv ref (fst c) p) by (rewrite Forall_forall in F; apply F; eapply nth_error_In; exact E).
  assert (Hok : pc_ok ref p) by (destruct p; cbn in *; tauto).
  destruct (act ref (fst c) p) as [sh' p'] eqn:A. cbn [fst snd] in E1, E2.
  assert (Hin : forall s t, In (Done s t true) (snd (cstep ref c i)) -> p' = Done s t true \/ In (Done s t true) (snd c)).
  { intros s t H. rewrite E2 in H. apply in_app_iff in H. rewrite (split_nth _ _ _ E). rewrite in_app_iff. cbn [In]. cbn [In] in H. tauto. }
  destruct (act_effect ref _ _ _ _ Hok A) as [[-> H]|(s & t & Ha & -> & Acc & -> & D)].
  - left. split; [exact E1|]. intros s t H1. destruct (Hin s t H1) as [H2|H2]; [|exact H2]. apply H in H2. subst p. eapply nth_error_In; exact E.
  - right. exists s, t. split; [rewrite nth_error_map, E; cbn; f_equal; exact Ha|]. split; [exact Acc|]. split; [exact E1|]. split.
    + rewrite E2. rewrite nth_error_app2; [|rewrite firstn_length; lia]. assert (L : (i < length (snd c))%nat) by (apply nth_error_Some; congruence).
      rewrite firstn_length, Nat.min_l by lia. rewrite Nat.sub_diag. reflexivity.
    + split; [exact D|]. intros s' t' H1. destruct (Hin s' t' H1) as [H2|H2]; [left; injection H2 as -> ->; reflexivity|right; exact H2].
Qed.
(** [sound]: the cell's value comes from a submitted, acceptable call; successful calls were visible at some moment *)
Lemma run_sound ref calls s : let c := run ref (tt_init, start calls) s in
  (fst c = tt_init \/ exists src t, In (src, t) calls /\ acceptable ref src t /\ fst c = stored t) /\
  (forall src t, In (Done src t true) (snd c) -> exists s1 s2, s = s1 ++ s2 /\ fst (run ref (tt_init, start calls) s1) = stored t).
Proof.
  induction s as [|i s IH] using rev_ind; cbn zeta in *.
  - split; [left; reflexivity|]. intros src t H. cbn in H. unfold start in H. apply in_map_iff in H. destruct H as ([? ?] & H & _). discriminate.
  - destruct IH as [IH1 IH2]. rewrite run_app. set (c := run ref (tt_init, start calls) s) in *. change (run ref c [i]) with (cstep ref c i).
    destruct (run_inv ref s _ (start_inv ref calls)) as [I _]. fold c in I.
    destruct (cstep_effect ref c i I) as [[E H]|(src & t & Ha & Acc & E & Hd & _ & H)].
    + split; [rewrite E; exact IH1|]. intros s' t' H1. destruct (IH2 _ _ (H _ _ H1)) as (s1 & s2 & -> & Q). exists s1, (s2 ++ [i]). split; [rewrite app_assoc; reflexivity|exact Q].
    + split.
      * right. exists src, t. split; [|split; assumption]. apply nth_error_In in Ha. unfold c in Ha. rewrite run_args in Ha. cbn [snd] in Ha. rewrite start_args in Ha. exact Ha.
      * intros s' t' H1. destruct (H _ _ H1) as [E'|H2].
        -- injection E' as -> ->. exists (s ++ [i]), []. split; [rewrite app_nil_r; reflexivity|]. rewrite run_app. exact E.
        -- destruct (IH2 _ _ H2) as (s1 & s2 & -> & Q). exists s1, (s2 ++ [i]). split; [rewrite app_assoc; reflexivity|exact Q].
Qed.
Lemma run_lower ref calls s src t r : let c := run ref (tt_init, start calls) s in
  In (Done src t r) (snd c) -> acceptable ref src t -> t_solved (fst c) = true /\ min_abs t <= tt_abs (fst c).
Proof.
  cbn zeta. intros H A. destruct (run_inv ref s _ (start_inv ref calls)) as [[_ F] _]. rewrite Forall_forall in F. apply (F _ H). exact A.
Qed.
