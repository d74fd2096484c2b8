From Verif Require Import Base RtcmMsm_model RtcmMsm_spec RtcmMsm_proofs Signals_model Signals_spec Signals_proofs Time_model Sbp2Rtcm_model Sbp2Msm_model Sbp2Msm_spec Sbp2Msm_proofs.

Lemma same_refl h : same_fields h h. Proof. repeat split. Qed.
Lemma same_trans a b d : same_fields a b -> same_fields b d -> same_fields a d.
Proof. unfold same_fields. intuition congruence. Qed.
Lemma add_header_same h k prn h' : (msm_add_to_header h k prn = Added h' \/ msm_add_to_header h k prn = NotAdded h') -> same_fields h h'.
Proof.
  unfold msm_add_to_header. cbv zeta. intros H.
  destruct (negb (num_cells h =? 0)); [destruct H; discriminate|].
  destruct (code_eqb k CODE_INVALID); [destruct H as [H|H]; inversion H; apply same_refl|].
  destruct (negb (prn_valid (to_constellation (mh_num h)) prn)); [destruct H as [H|H]; inversion H; apply same_refl|].
  destruct (prn_to_msm_sat_id prn (to_constellation (mh_num h))) as [si|]; [|destruct H; discriminate].
  destruct (code_to_msm_signal_id k (to_constellation (mh_num h))) as [gi|]; [|destruct H; discriminate].
  assert (X : forall h1 ns1, same_fields h h1 -> ((if 32 <=? gi then AddUb else if znth false gi (sig_mask h1) then Added h1
     else if ns1 * (num_sigs h + 1) <=? MSM_MAX_CELLS then Added (set_sig h1 gi) else NotAdded h1) = Added h' \/ (if 32 <=? gi then AddUb else if znth false gi (sig_mask h1) then Added h1
     else if ns1 * (num_sigs h + 1) <=? MSM_MAX_CELLS then Added (set_sig h1 gi) else NotAdded h1) = NotAdded h') -> same_fields h h').
  { intros h1 ns1 S Q. destruct (32 <=? gi); [destruct Q; discriminate|]. destruct (znth false gi (sig_mask h1)); [destruct Q as [Q|Q]; inversion Q; subst; exact S|].
    destruct (ns1 * (num_sigs h + 1) <=? MSM_MAX_CELLS); destruct Q as [Q|Q]; inversion Q; subst; exact S. }
  destruct (znth false si (sat_mask h)); [apply X in H; [exact H|apply same_refl]|].
  destruct ((num_sats h + 1) * num_sigs h <=? MSM_MAX_CELLS); [apply X in H; [exact H|repeat split]|].
  destruct H as [H|H]; inversion H; apply same_refl.
Qed.
Lemma add_cell_same h k prn h' : (msm_add_to_cell_mask h k prn = Added h' \/ msm_add_to_cell_mask h k prn = NotAdded h') -> same_fields h h'.
Proof.
  unfold msm_add_to_cell_mask. cbv zeta. intros H.
  repeat (match type of H with context [if ?b then _ else _] => destruct b | context [match ?x with Some _ => _ | None => _ end] => destruct x end);
    destruct H as [H|H]; inversion H; repeat split.
Qed.

Lemma list_eq_nil_dec {A} (l : list A) : {l = []} + {l <> []}.
Proof. destruct l; [left; reflexivity|right; discriminate]. Qed.
(** invariants of the loops *)
Lemma foldo_inv {A S} (P : S -> Prop) (f : A -> S -> option S) l : (forall a s s', P s -> f a s = Some s' -> P s') -> forall s s', P s -> foldo f l s = Some s' -> P s'.
Proof.
  intros H. induction l as [|a l IH]; intros s s' Ps E; cbn [foldo] in E; [injection E as <-; exact Ps|].
  destruct (f a s) as [s1|] eqn:F; [|discriminate]. eapply IH; [|exact E]. eapply H; eassumption.
Qed.
Section P.
Variable code_of : Z -> code.
Lemma to_header_same o m m' : to_header code_of o m = Some m' -> same_fields (om_hdr m) (om_hdr m').
Proof. unfold to_header. intros H. destruct (msm_add_to_header (om_hdr m) (code_of (o_code o)) (o_sat o)) as [h|h|] eqn:E; inversion H; subst; cbn [with_hdr om_hdr]; eapply add_header_same; eauto. Qed.
Lemma to_cell_same o m m' : to_cell_mask code_of o m = Some m' -> same_fields (om_hdr m) (om_hdr m').
Proof. unfold to_cell_mask. intros H. destruct (msm_add_to_cell_mask (om_hdr m) (code_of (o_code o)) (o_sat o)) as [h|h|] eqn:E; inversion H; subst; cbn [with_hdr om_hdr]; eapply add_cell_same; eauto. Qed.
Lemma to_signal_same o m m' : to_signal_data code_of o m = Some m' -> om_hdr m' = om_hdr m.
Proof.
  unfold to_signal_data. cbv zeta. intros H. destruct (prn_to_msm_sat_index (om_hdr m) (o_sat o)); [|discriminate]. destruct (code_to_msm_signal_index (om_hdr m) (code_of (o_code o))); [|discriminate].
  destruct (64 <=? _); [discriminate|]. destruct (negb _); [inversion H; reflexivity|]. destruct (32 <=? _); [discriminate|]. inversion H. reflexivity.
Qed.
Lemma each_same (f : pobs -> omsg -> option omsg) os ms ms' : (forall o m m', f o m = Some m' -> same_fields (om_hdr m) (om_hdr m')) ->
  each code_of f os ms = Some ms' -> forall c, same_fields (om_hdr (ms c)) (om_hdr (ms' c)).
Proof.
  intros H E c. pose proof (each_inv code_of f os ms ms' E c) as F.
  apply (foldo_inv (fun m => same_fields (om_hdr (ms c)) (om_hdr m)) f (obs_of code_of c os)) with (s := ms c); [|apply same_refl|exact F].
  intros a s s' P Q. eapply same_trans; [exact P|]. eapply H; exact Q.
Qed.

(** ** choosing the last message *)
Definition active (f : cons -> omsg) (c : cons) : bool := 0 <? num_sats (om_hdr (f c)).
Lemma mark_last_spec l f : (Forall (fun c => active f c = false) l /\ mark_last l f = f) \/
  exists l1 c l2, l = l1 ++ c :: l2 /\ Forall (fun c => active f c = false) l1 /\ active f c = true /\ mark_last l f = setm f c (with_multiple (f c) 0).
Proof.
  induction l as [|c l IH]; cbn [mark_last]; [left; split; [constructor|reflexivity]|]. fold (active f c). destruct (active f c) eqn:A.
  - right. exists [], c, l. split; [reflexivity|]. split; [constructor|]. split; [exact A|reflexivity].
  - destruct IH as [[F ->]|(l1 & c' & l2 & -> & F & A' & ->)].
    + left. split; [constructor; assumption|reflexivity].
    + right. exists (c :: l1), c', l2. split; [reflexivity|]. split; [constructor; assumption|]. split; [exact A'|reflexivity].
Qed.
Lemma emit_spec cs f out : emit cs f = Some out -> out = map f (filter (active f) cs).
Proof.
  revert out. induction cs as [|c cs IH]; intros out H; cbn [emit] in H; [inversion H; reflexivity|]. cbn [filter]. fold (active f c) in H.
  destruct (active f c); [|apply IH; exact H]. destruct (encodable (mh_num (om_hdr (f c)))); [|discriminate]. destruct (emit cs f) as [l|]; [|discriminate].
  inversion H. cbn [map]. rewrite (IH l eq_refl). reflexivity.
Qed.
Lemma emit_total cs f : Forall (fun c => active f c = true -> encodable (mh_num (om_hdr (f c))) = true) cs -> emit cs f = Some (map f (filter (active f) cs)).
Proof.
  induction 1 as [|c cs H F IH]; cbn [emit filter]; [reflexivity|]. fold (active f c). destruct (active f c) eqn:A; [|exact IH]. rewrite (H eq_refl), IH. reflexivity.
Qed.
Lemma setm_active f c m c' : num_sats (om_hdr m) = num_sats (om_hdr (f c)) -> active (setm f c m) c' = active f c'.
Proof. intros E. unfold active, setm. destruct (cons_eqb c c') eqn:Q; [apply cons_eqb_spec in Q; subst c'; rewrite E|]; reflexivity. Qed.
Lemma filter_none {A} (f : A -> bool) l : Forall (fun x => f x = false) l -> filter f l = [].
Proof. induction 1 as [|x l H F IH]; cbn [filter]; [reflexivity|]. rewrite H. exact IH. Qed.
Lemma filter_ext_in' {A} (f g : A -> bool) l : (forall x, f x = g x) -> filter f l = filter g l.
Proof. intros H. induction l as [|x l IH]; cbn [filter]; [reflexivity|]. rewrite H, IH. reflexivity. Qed.
Lemma order_nodup : NoDup cons_order.
Proof. unfold cons_order. repeat constructor; cbn; intuition discriminate. Qed.

(** what is emitted after the mark: messages of the active constellations, all unchanged but the last, which has its bit cleared *)
Lemma marked_emit f out : emit cons_order (mark_last (rev cons_order) f) = Some out ->
  out = [] \/ exists pre c, filter (active f) cons_order = pre ++ [c] /\ out = map f pre ++ [with_multiple (f c) 0].
Proof.
  intros H. apply emit_spec in H. destruct (mark_last_spec (rev cons_order) f) as [[F E]|(l1 & c & l2 & R & F & A & E)]; rewrite E in H.
  - left. rewrite filter_none in H; [exact H|]. apply Forall_rev in F. rewrite rev_involutive in F. exact F.
  - right. assert (O : cons_order = rev l2 ++ c :: rev l1).
    { rewrite <- (rev_involutive cons_order), R, rev_app_distr. cbn [rev]. rewrite <- app_assoc. reflexivity. }
    exists (filter (active f) (rev l2)), c. apply Forall_rev in F.
    assert (FA : filter (active f) cons_order = filter (active f) (rev l2) ++ [c]).
    { rewrite O, filter_app. cbn [filter]. rewrite A, (filter_none _ (rev l1)) by exact F. reflexivity. }
    split; [exact FA|]. rewrite H.
    assert (FE : filter (active (setm f c (with_multiple (f c) 0))) cons_order = filter (active f) cons_order).
    { apply filter_ext_in'. intros x. apply setm_active. reflexivity. }
    rewrite FE, FA, map_app. cbn [map]. f_equal.
    + apply map_ext_in. intros x Hx. apply filter_In in Hx. destruct Hx as [Hx _]. unfold setm. destruct (cons_eqb c x) eqn:Q; [|reflexivity].
      exfalso. apply cons_eqb_spec in Q. subst x. pose proof order_nodup as N. rewrite O in N. apply NoDup_remove_2 in N. apply N. apply in_or_app. left. exact Hx.
    + unfold setm. rewrite (proj2 (cons_eqb_spec c c) eq_refl). reflexivity.
Qed.

(** the initial messages *)
Lemma init_spec cfg e c m : msm_init cfg e c = Some m -> header_of cfg e c (om_hdr m) /\ mh_multiple (om_hdr m) = 1 /\
  sat_mask (om_hdr m) = repeat false 64 /\ sig_mask (om_hdr m) = repeat false 32 /\ cell_mask (om_hdr m) = repeat false 64 /\
  om_sats m = repeat [] 32 /\ om_sigs m = repeat None 64.
Proof.
  unfold msm_init. intros H. assert (L : Z.land (e_sender e) 4095 = e_sender e mod 4096) by (change 4095 with (Z.ones 12); apply Z.land_ones; lia).
  destruct c; try (inversion H; subst; cbn [om_hdr mh_multiple sat_mask sig_mask cell_mask om_sats om_sigs]; repeat split; cbn; exact L || reflexivity).
  destruct (compute_glo_tow_ms (oh_tow (e_hdr e)) (c_leap cfg)) as [t|] eqn:T; inversion H; subst; cbn [om_hdr mh_multiple sat_mask sig_mask cell_mask om_sats om_sigs].
  repeat split; cbn; exact L || reflexivity || exact T.
Qed.
Lemma header_same cfg e c h h' : header_of cfg e c h -> same_fields h h' -> header_of cfg e c h'.
Proof.
  unfold header_of, same_fields. intros H (S1 & S2 & S3 & S4 & S5 & S6 & S7 & S8 & S9 & S10). rewrite S1, S2, S3, S5, S6, S7, S8, S9, S10. exact H.
Qed.

Definition inits (ms0 : cons -> omsg) cfg e : Prop := forall c, c <> cINVALID -> msm_init cfg e c = Some (ms0 c).
Lemma buffer_stages cfg e out : buffer_to_msm code_of cfg e = Some out ->
  exists ms0 ms1 ms2 ms3, inits ms0 cfg e /\ each code_of (to_header code_of) (e_obs e) ms0 = Some ms1 /\
    each code_of (to_cell_mask code_of) (e_obs e) ms1 = Some ms2 /\ each code_of (to_signal_data code_of) (e_obs e) ms2 = Some ms3 /\
    emit cons_order (mark_last (rev cons_order) ms3) = Some out.
Proof.
  unfold buffer_to_msm. destruct (msm_init cfg e cGPS) as [m0|] eqn:E0; [|discriminate]. destruct (msm_init cfg e cSBAS) as [m1|] eqn:E1; [|discriminate].
  destruct (msm_init cfg e cGLO) as [m2|] eqn:E2; [|discriminate]. destruct (msm_init cfg e cBDS) as [m3|] eqn:E3; [|discriminate].
  destruct (msm_init cfg e cQZS) as [m4|] eqn:E4; [|discriminate]. destruct (msm_init cfg e cGAL) as [m5|] eqn:E5; [|discriminate]. cbv zeta.
  set (ms0 := fun c => match c with cGPS => m0 | cSBAS => m1 | cGLO => m2 | cBDS => m3 | cQZS => m4 | cGAL => m5 | cINVALID => m0 end).
  destruct (each code_of (to_header code_of) (e_obs e) ms0) as [ms1|] eqn:F1; [|discriminate].
  destruct (each code_of (to_cell_mask code_of) (e_obs e) ms1) as [ms2|] eqn:F2; [|discriminate].
  destruct (each code_of (to_signal_data code_of) (e_obs e) ms2) as [ms3|] eqn:F3; [|discriminate].
  intros H. exists ms0, ms1, ms2, ms3. split; [|split; [exact F1|split; [exact F2|split; [exact F3|exact H]]]].
  intros c N. destruct c; try contradiction; assumption.
Qed.
Lemma stages_header cfg e ms0 ms1 ms2 ms3 c : inits ms0 cfg e -> each code_of (to_header code_of) (e_obs e) ms0 = Some ms1 ->
    each code_of (to_cell_mask code_of) (e_obs e) ms1 = Some ms2 -> each code_of (to_signal_data code_of) (e_obs e) ms2 = Some ms3 -> c <> cINVALID ->
    header_of cfg e c (om_hdr (ms3 c)) /\ mh_multiple (om_hdr (ms3 c)) = 1.
Proof.
  intros I E1 E2 E3 N. destruct (init_spec cfg e c (ms0 c) (I c N)) as (H & M & _).
  pose proof (each_same _ _ _ _ to_header_same E1 c) as S1. pose proof (each_same _ _ _ _ to_cell_same E2 c) as S2.
  assert (S3 : same_fields (om_hdr (ms2 c)) (om_hdr (ms3 c))).
  { apply (each_same (to_signal_data code_of) (e_obs e)); [|exact E3]. intros o m m' Q. rewrite (to_signal_same o m m' Q). apply same_refl. }
  pose proof (same_trans _ _ _ S1 (same_trans _ _ _ S2 S3)) as S. split; [eapply header_same; eassumption|].
  destruct S as (_ & _ & _ & -> & _). exact M.
Qed.

(** ** the whole epoch *)
Lemma init_total cfg e c : 0 <= oh_tow (e_hdr e) < 604800000 -> (forall k, c_leap cfg = Some k -> -128 <= k <= 127) -> exists m, msm_init cfg e c = Some m.
Proof.
  intros R L. unfold msm_init. cbv zeta. destruct c; try (eexists; reflexivity). unfold compute_glo_tow_ms. destruct (c_leap cfg) as [k|] eqn:E; [|eexists; reflexivity].
  specialize (L k eq_refl). unfold HOUR_MS, WEEK_MS. cbv zeta.
  assert (X : let t := (if oh_tow (e_hdr e) + 3 * 3600000 - k * 1000 <? 0 then oh_tow (e_hdr e) + 3 * 3600000 - k * 1000 + 604800000 else oh_tow (e_hdr e) + 3 * 3600000 - k * 1000) in
    0 <= (if 604800000 <=? t then t - 604800000 else t) < 604800000 + 1000).
  { cbv zeta. destruct (Z.ltb_spec (oh_tow (e_hdr e) + 3 * 3600000 - k * 1000) 0);
    match goal with |- context [604800000 <=? ?t] => destruct (Z.leb_spec 604800000 t) end; lia. }
  cbv zeta in X. set (t := if 604800000 <=? _ then _ else _) in *. replace ((0 <=? t) && (t <? 604800000 + 1000)) with true by lia. eexists. reflexivity.
Qed.
Lemma znth_repeat {A} (d x : A) n i : znth d i (repeat x n) = x \/ znth d i (repeat x n) = d.
Proof.
  unfold znth. destruct (Nat.lt_ge_cases (Z.to_nat i) n) as [L|G]; [left|right; apply nth_overflow; rewrite repeat_length; exact G].
  apply (repeat_spec n x). apply nth_In. rewrite repeat_length. exact L.
Qed.
Lemma znth_false n i : znth false i (repeat false n) = false.
Proof. destruct (znth_repeat false false n i); assumption. Qed.
Lemma obs_of_in c os o : In o (obs_of code_of c os) <-> In o os /\ cons_of (sig_of code_of o) = Some c.
Proof.
  unfold obs_of. rewrite filter_In. destruct (cons_of (sig_of code_of o)) as [c'|]; [|intuition discriminate].
  rewrite cons_eqb_spec. split; intros [H1 H2]; split; try assumption; congruence.
Qed.
Lemma nodup_filter_map {A B} (g : A -> B) (f : A -> bool) l : NoDup (map g l) -> NoDup (map g (filter f l)).
Proof.
  induction l as [|x l IH]; cbn [map filter]; intros N; [constructor|]. inversion N as [|? ? NI N']; subst. destruct (f x); [|apply IH; exact N'].
  cbn [map]. constructor; [|apply IH; exact N']. intros H. apply NI. apply in_map_iff in H. destruct H as (y & E & Hy). apply filter_In in Hy. apply in_map_iff. exists y. tauto.
Qed.
Lemma order_in c : c <> cINVALID -> In c cons_order.
Proof. destruct c; cbn; tauto. Qed.
Lemma msg_num_cons c ty : (ty = 4 \/ ty = 5) -> c <> cINVALID -> to_constellation (to_msm_msg_num c ty) = c.
Proof. intros [-> | ->] N; destruct c; try contradiction; reflexivity. Qed.
Lemma msg_num_encodable c ty : (ty = 4 \/ ty = 5) -> c <> cINVALID -> c <> cSBAS -> encodable (to_msm_msg_num c ty) = true.
Proof. intros [-> | ->] N N'; destruct c; try contradiction; reflexivity. Qed.
Lemma cons_of_valid k c : cons_of k = Some c -> c <> cINVALID.
Proof. destruct k; cbn; intros H; inversion H; discriminate. Qed.

(** everything known about the message of a constellation with observations [l] *)
Definition full (c : cons) (l : list pobs) (m : omsg) : Prop :=
  mask_sizes (om_hdr m) /\ bits_from code_of c l (om_hdr m) /\ cells_from code_of c l (om_hdr m) /\ Forall (fun o => carries m o (satp c o) (sigp code_of c o)) l /\
  len (om_sats m) = 32 /\ len (om_sigs m) = 64 /\ sats_from c l m.
Lemma epoch_full cfg e : (c_type cfg = 4 \/ c_type cfg = 5) -> 0 <= oh_tow (e_hdr e) < 604800000 -> (forall k, c_leap cfg = Some k -> -128 <= k <= 127) ->
  epoch_ok code_of (e_obs e) ->
  exists out, buffer_to_msm code_of cfg e = Some out /\
    Forall2 (fun c m => msm_of code_of cfg e c m /\ full c (obs_of code_of c (e_obs e)) m /\ 0 <= mh_multiple (om_hdr m) <= 1) (present code_of (e_obs e)) out.
Proof.
  intros TY TOW LEAP (PL & DUP & SZ).
  set (ms0 := fun c => match msm_init cfg e c with Some m => m | None => mkomsg (mkmhdr 0 0 0 0 0 0 0 0 0 0 [] [] []) [] [] end).
  assert (I0 : forall c, msm_init cfg e c = Some (ms0 c)) by (intros c; unfold ms0; destruct (init_total cfg e c TOW LEAP) as [m ->]; reflexivity).
  set (ms0' := fun c => match c with cGPS => ms0 cGPS | cSBAS => ms0 cSBAS | cGLO => ms0 cGLO | cBDS => ms0 cBDS | cQZS => ms0 cQZS | cGAL => ms0 cGAL | cINVALID => ms0 cGPS end).
  assert (I : inits ms0' cfg e) by (intros c N; rewrite I0; destruct c; try reflexivity; contradiction).
  assert (VALID : Forall (fun o => cons_of (sig_of code_of o) <> None) (e_obs e)).
  { eapply Forall_impl; [|exact PL]. intros o (c & i & j & _ & P1 & _). rewrite P1. discriminate. }
  set (l c := obs_of code_of c (e_obs e)).
  assert (LP : forall c, Forall (fun o => exists i j, placed code_of c o i j) (l c)).
  { intros c. apply Forall_forall. intros o Ho. apply obs_of_in in Ho. destruct Ho as [Ho Ec]. rewrite Forall_forall in PL. destruct (PL o Ho) as (c' & i & j & _ & P).
    assert (c' = c) by (destruct P as [P1 _]; congruence). subst c'. exists i, j. exact P. }
  assert (LD : forall c, NoDup (map (fun o => (o_sat o, sig_of code_of o)) (l c))) by (intros c; apply nodup_filter_map; exact DUP).
  assert (NB : forall c, l c <> [] -> c <> cSBAS /\ c <> cINVALID).
  { intros c N. destruct (l c) as [|o r] eqn:E; [contradiction|]. assert (Ho : In o (l c)) by (rewrite E; left; reflexivity). apply obs_of_in in Ho. destruct Ho as [Ho Ec].
    rewrite Forall_forall in PL. destruct (PL o Ho) as (c' & i & j & NS & P1 & _). assert (c' = c) by congruence. subst c'. split; [exact NS|]. eapply cons_of_valid. exact Ec. }
  assert (LINV : l cINVALID = []) by (destruct (list_eq_nil_dec (l cINVALID)) as [Q|Q]; [exact Q|destruct (NB _ Q); contradiction]).
  (* per constellation *)
  assert (ONE : forall c, exists m1 m2 m3, foldo (to_header code_of) (l c) (ms0' c) = Some m1 /\ foldo (to_cell_mask code_of) (l c) m1 = Some m2 /\
     foldo (to_signal_data code_of) (l c) m2 = Some m3 /\
     (c <> cINVALID -> full c (l c) m3)).
  { intros c. destruct (cons_eqb c cINVALID) eqn:CI.
    - apply cons_eqb_spec in CI. subst c. rewrite LINV. eexists _, _, _. split; [reflexivity|]. split; [reflexivity|]. split; [reflexivity|]. intros X. contradiction.
    - assert (N : c <> cINVALID) by (intros ->; discriminate CI).
      destruct (init_spec cfg e c (ms0' c) (I c N)) as (H & _ & S1 & S2 & S3 & S4 & S5).
      destruct (SZ c) as [Z32 Z64]. fold (l c) in Z32, Z64.
      assert (TC : to_constellation (mh_num (om_hdr (ms0' c))) = c) by (destruct H as (-> & _); apply msg_num_cons; assumption).
      destruct (pass1 code_of c (l c) N (LP c) Z64 (l c) [] (ms0' c) eq_refl TC) as (h1 & F1 & B1 & SF1 & CM1 & BI1).
      + split; [|split].
        * unfold mask_sizes. rewrite S1, S2, S3, !len_repeat. repeat split.
        * intros i. rewrite S3. apply znth_false.
        * rewrite S1, S2. vm_compute. discriminate.
      + split; intros x Hx; rewrite ?S1, ?S2, znth_false; (split; [discriminate|intros (o & [] & _)]).
      + destruct B1 as (M1 & Z1 & _).
        assert (TC1 : to_constellation (mh_num h1) = c) by (destruct SF1 as (-> & _); exact TC).
        destruct (pass2 code_of c (l c) N (LP c) (LD c) Z32 Z64 (l c) [] (with_hdr (ms0' c) h1) eq_refl TC1 M1 BI1) as (h2 & F2 & M2 & SF2 & SM2 & GM2 & C2).
        * intros x Hx. cbn [with_hdr om_hdr]. rewrite Z1. split; [discriminate|intros (o & [] & _)].
        * cbn [with_hdr om_hdr] in SF2, SM2, GM2, F2.
          assert (BI2 : bits_from code_of c (l c) h2) by (unfold bits_from; rewrite SM2, GM2; exact BI1).
          assert (TC2 : to_constellation (mh_num h2) = c) by (destruct SF2 as (-> & _); exact TC1).
          destruct (pass3 code_of c (l c) N (LP c) (LD c) Z32 Z64 h2 TC2 M2 BI2 C2 (l c) [] (with_hdr (ms0' c) h2) eq_refl eq_refl) as (m3 & F3 & H3 & CA & LS3 & LG3 & SF3).
          -- cbn [with_hdr om_sats]. rewrite S4. reflexivity.
          -- cbn [with_hdr om_sigs]. rewrite S5. reflexivity.
          -- constructor.
          -- split; [|split].
             ++ intros i o Hi Ho. exfalso. cbn [with_hdr om_sats] in Ho. rewrite S4 in Ho. destruct (znth_repeat [] (@nil pobs) 32 i) as [Q|Q]; rewrite Q in Ho; exact Ho.
             ++ intros i o Hi Ho. exfalso. cbn [with_hdr om_sigs] in Ho. rewrite S5 in Ho. destruct (znth_repeat None (@None pobs) 64 i) as [Q|Q]; rewrite Q in Ho; discriminate Ho.
             ++ intros o [].
          -- exists (with_hdr (ms0' c) h1), (with_hdr (ms0' c) h2), m3. split; [exact F1|]. split; [exact F2|]. split; [exact F3|]. intros _. unfold full. rewrite H3. split; [exact M2|]. split; [exact BI2|]. split; [exact C2|]. split; [exact CA|]. split; [exact LS3|]. split; [exact LG3|exact SF3]. }
  destruct (each_total code_of (to_header code_of) (e_obs e) ms0' VALID) as (ms1 & E1 & G1).
  { intros c. destruct (ONE c) as (m1 & m2 & m3 & A & _). exists m1. exact A. }
  destruct (each_total code_of (to_cell_mask code_of) (e_obs e) ms1 VALID) as (ms2 & E2 & G2).
  { intros c. destruct (ONE c) as (m1 & m2 & m3 & A & B & _). specialize (G1 c). fold (l c) in G1. rewrite A in G1. inversion G1; subst. exists m2. exact B. }
  destruct (each_total code_of (to_signal_data code_of) (e_obs e) ms2 VALID) as (ms3 & E3 & G3).
  { intros c. destruct (ONE c) as (m1 & m2 & m3 & A & B & D & _). specialize (G1 c). specialize (G2 c). fold (l c) in G1, G2. rewrite A in G1. inversion G1 as [Q1]. rewrite <- Q1, B in G2. inversion G2 as [Q2].
    exists m3. rewrite <- Q2. exact D. }
  assert (FIN : forall c, c <> cINVALID -> full c (l c) (ms3 c)).
  { intros c N. destruct (ONE c) as (m1 & m2 & m3 & A & B & D & X). specialize (G1 c). specialize (G2 c). specialize (G3 c). fold (l c) in G1, G2, G3.
    rewrite A in G1. inversion G1 as [Q1]. rewrite <- Q1, B in G2. inversion G2 as [Q2]. rewrite <- Q2, D in G3. inversion G3 as [Q3]. rewrite <- Q3. apply X. exact N. }
  assert (HD : forall c, c <> cINVALID -> header_of cfg e c (om_hdr (ms3 c)) /\ mh_multiple (om_hdr (ms3 c)) = 1).
  { intros c N. eapply stages_header; eassumption. }
  assert (ACT : forall c, c <> cINVALID -> active ms3 c = negb (len (l c) =? 0)).
  { intros c N. destruct (FIN c N) as ((L1 & L2 & L3) & [BS _] & _). unfold active. rewrite num_sats_eq by exact L1.
    destruct (l c) as [|o r] eqn:E.
    - assert (Z0 : set_count (sat_mask (om_hdr (ms3 c))) = 0).
      { apply no_true. intros i. destruct (znth false i (sat_mask (om_hdr (ms3 c)))) eqn:T; [|reflexivity]. exfalso.
        destruct (Z.lt_ge_cases i 0) as [LT|GE].
        - assert (T' : znth false 0 (sat_mask (om_hdr (ms3 c))) = true) by (unfold znth in *; replace (Z.to_nat 0) with (Z.to_nat i) by lia; exact T).
          apply BS in T'; [|lia]. destruct T' as (o & [] & _).
        - apply BS in T; [|lia]. destruct T as (o & [] & _). }
      rewrite Z0. reflexivity.
    - assert (Ho : In o (l c)) by (rewrite E; left; reflexivity). destruct (pos_range code_of c (l c) N (LP c) o Ho) as [R _].
      assert (T : znth false (satp c o) (sat_mask (om_hdr (ms3 c))) = true) by (apply BS; [lia|exists o; split; [left; reflexivity|reflexivity]]).
      pose proof (rank_lt (sat_mask (om_hdr (ms3 c))) (satp c o) T ltac:(lia)) as RK. rewrite len_cons. pose proof (len_nonneg r). lia. }
  set (msF := mark_last (rev cons_order) ms3).
  assert (MF : forall c, c <> cINVALID -> active msF c = active ms3 c /\ (msF c = ms3 c \/ msF c = with_multiple (ms3 c) 0)).
  { intros c N. unfold msF. destruct (mark_last_spec (rev cons_order) ms3) as [[_ ->]|(l1 & c' & l2 & _ & _ & _ & ->)].
    - split; [reflexivity|left; reflexivity].
    - split; [apply setm_active; reflexivity|]. unfold setm. destruct (cons_eqb c' c) eqn:Q; [apply cons_eqb_spec in Q; subst c'; right; reflexivity|left; reflexivity]. }
  assert (VC : forall c, In c cons_order -> c <> cINVALID) by (intros c Hc ->; cbn in Hc; intuition discriminate).
  assert (EM : emit cons_order msF = Some (map msF (filter (active msF) cons_order))).
  { apply emit_total. apply Forall_forall. intros c Hc A. pose proof (VC c Hc) as N. destruct (MF c N) as [MA ME]. rewrite MA, ACT in A by exact N.
    assert (NE : l c <> []) by (intros Q; rewrite Q in A; discriminate A). destruct (NB c NE) as [NS _].
    assert (NUM : mh_num (om_hdr (msF c)) = to_msm_msg_num c (c_type cfg)).
    { destruct (HD c N) as [(Q & _) _]. destruct ME as [-> | ->]; exact Q. }
    rewrite NUM. apply msg_num_encodable; assumption. }
  exists (map msF (filter (active msF) cons_order)). split.
  - unfold buffer_to_msm. rewrite !I0. fold ms0'. cbv zeta. change (fun c => match c with cGPS => ms0 cGPS | cSBAS => ms0 cSBAS | cGLO => ms0 cGLO | cBDS => ms0 cBDS | cQZS => ms0 cQZS | cGAL => ms0 cGAL | cINVALID => ms0 cGPS end) with ms0'.
    rewrite E1, E2, E3. exact EM.
  - assert (PE : present code_of (e_obs e) = filter (active msF) cons_order).
    { unfold present. fold cons_order. apply filter_ext_in. intros c Hc. destruct (MF c (VC c Hc)) as [-> _]. symmetry. apply ACT. apply VC. exact Hc. }
    rewrite PE. assert (ALL : forall c, In c (filter (active msF) cons_order) -> msm_of code_of cfg e c (msF c) /\ full c (obs_of code_of c (e_obs e)) (msF c) /\ 0 <= mh_multiple (om_hdr (msF c)) <= 1).
    { intros c Hc. apply filter_In in Hc. destruct Hc as [Hc _]. pose proof (VC c Hc) as N. destruct (MF c N) as [_ ME]. pose proof (FIN c N) as FU. pose proof FU as (M & B & C & CA & _). destruct (HD c N) as [HDc MU].
      split; [|split; [fold (l c); destruct ME as [-> | ->]; exact FU|destruct ME as [-> | ->]; [rewrite MU; lia|cbn; lia]]].
      assert (CNT : set_count (cell_mask (om_hdr (ms3 c))) = len (l c)).
      { destruct (SZ c) as [Z32 Z64]. apply (cells_count code_of c (l c) N (LP c) (LD c) Z32 Z64); assumption. }
      assert (X : forall m, om_hdr m = om_hdr (ms3 c) \/ m = with_multiple (ms3 c) 0 -> m = ms3 c \/ m = with_multiple (ms3 c) 0 -> msm_of code_of cfg e c m).
      { intros m _ Q. split; [|split].
        - destruct Q as [-> | ->]; exact HDc.
        - intros o i j Ho P. assert (Hl : In o (l c)) by (apply obs_of_in; split; [exact Ho|apply P]).
          destruct (placed_eq code_of c (l c) (LP c) o Hl) as (_ & [_ Pi] & Pj). destruct P as (_ & [_ ->] & Pj').
          assert (EJ : j = sigp code_of c o). { destruct (sig_id_of _ _ _ Pj') as (A & _). destruct (sig_id_of _ _ _ Pj) as (A' & _). congruence. }
          subst j. rewrite Forall_forall in CA. specialize (CA o Hl). unfold satp in CA. destruct Q as [-> | ->]; exact CA.
        - destruct Q as [-> | ->]; exact CNT. }
      apply X; [|exact ME]. destruct ME as [-> | ->]; auto. }
    revert ALL. generalize (filter (active msF) cons_order). intros cs ALL. induction cs as [|c cs IH]; cbn [map]; [constructor|].
    constructor; [apply ALL; left; reflexivity|]. apply IH. intros c' Hc'. apply ALL. right. exact Hc'.
Qed.
Lemma epoch_msgs cfg e : (c_type cfg = 4 \/ c_type cfg = 5) -> 0 <= oh_tow (e_hdr e) < 604800000 -> (forall k, c_leap cfg = Some k -> -128 <= k <= 127) ->
  epoch_ok code_of (e_obs e) ->
  exists out, buffer_to_msm code_of cfg e = Some out /\ Forall2 (msm_of code_of cfg e) (present code_of (e_obs e)) out.
Proof.
  intros TY TOW LEAP OK. destruct (epoch_full cfg e TY TOW LEAP OK) as (out & E & F). exists out. split; [exact E|].
  clear E. induction F as [|c m cs ms H F IH]; [constructor|]. constructor; [apply H|exact IH].
Qed.
End P.
