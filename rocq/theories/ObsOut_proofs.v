(** Proofs for C85. *)
From Flocq Require Import IEEE754.Binary IEEE754.Bits.
From Verif Require Import Base Bits_model Bits_proofs Bitstream_model Time_model RtcmLegacy_model RtcmMsm_model RtcmMsm_spec RtcmMsm_proofs Signals_model Double_model Sbp2Rtcm_model Sbp2Msm_model MsmVal_model MsmVal_spec Options_model LegVal_model LegRx_model
  ObsBuffer_model ObsBuffer_spec RxTx_proofs Rx_model ObsOut_spec.
Local Open Scope Z_scope.

(** ** The buffer and the dispatch, for any observations with a property *)
Section Gen.
Context {obs oo aux : Type} (Q : obs -> Prop).
Notation rstate := (rstate obs aux).
Notation output_ok := (output_ok (oo := oo) Q).
Definition sender_ok (s : rstate) : Prop := 61568 <= r_sender s <= 65535 \/ r_sender s = 0 /\ r_buf s = [].
Definition inv (s : rstate) : Prop := Forall Q (r_buf s) /\ sender_ok s /\ 0 <= r_obs_wn s <= 32767 /\ 0 <= r_obs_tow s < 604800000 /\ wn (r_time s) <= 32767.

Lemma send_loop_ok (s : rstate) total N : sender_ok s -> 0 <= r_obs_wn s <= 32767 -> 0 <= r_obs_tow s < 604800000 -> total = 1 + (if 0 <? N then (N - 1) / 14 else 0) -> total <= 15 -> 0 <= N -> (r_buf s = [] -> N = 0) ->
  forall k i rest, 0 <= i -> i + Z.of_nat k = total -> len rest = Z.max 0 (N - 14 * i) -> Forall Q rest -> Forall output_ok (send_loop s total k i rest).
Proof.
  intros SD W T TE TL NN BE. induction k as [|k IH]; intros i rest I K L F; cbn [send_loop]; [constructor|].
  assert (TI : 14 * (total - 1) <= Z.max 0 (N - 1) < 14 * (total - 1) + 14).
  { rewrite TE. destruct (Z.ltb_spec 0 N); [|lia]. pose proof (Z.div_mod (N - 1) 14 ltac:(lia)). pose proof (Z.mod_pos_bound (N - 1) 14 ltac:(lia)). lia. }
  unfold OBS_PER_MSG. set (m := Z.min 14 (len rest)). constructor.
  - cbn [ObsOut_spec.output_ok]. rewrite Z.shiftl_mul_pow2 by lia. change (2 ^ 4) with 16. rewrite (Z.mod_small (total * 16 + i)) by lia.
    assert (Dv : (total * 16 + i) / 16 = total) by (symmetry; apply (Z.div_unique (total * 16 + i) 16 total i); lia).
    assert (Md : (total * 16 + i) mod 16 = i) by (symmetry; apply (Z.mod_unique (total * 16 + i) 16 total i); lia).
    assert (LT : len (take m rest) = m) by (rewrite len_take; lia).
    assert (NZ : take m rest = [] -> m = 0) by (intros E; rewrite E in LT; cbn in LT; lia).
    unfold message_ok. rewrite Dv, Md, LT. split; [|split; [exact W|split; [exact T|split; [lia|split; [lia|split; [lia|split; [lia|split]]]]]]].
    + destruct SD as [SD|[SD B]]; [left; exact SD|right; split; [exact SD|]]. specialize (BE B). destruct rest as [|x r]; [reflexivity|]. rewrite len_cons in L. pose proof (len_nonneg r). lia.
    + intros E. specialize (NZ E). lia.
    + apply Forall_take. exact F.
  - apply IH; [lia|lia| |apply Forall_drop; exact F]. rewrite len_drop. lia.
Qed.
Lemma send_ok (s s' : rstate) o : inv s -> send_observations s = Some (s', o) -> inv s' /\ Forall output_ok o.
Proof.
  intros (F & SD & W & T & TM) E. unfold send_observations in E. destruct ((_ <=? _) && _) eqn:C; [|discriminate]. injection E as <- <-. apply andb_prop in C. destruct C as [C1 C2].
  apply Z.leb_le in C1, C2. unfold MAX_OBS_PER_EPOCH in C1. pose proof (len_nonneg (r_buf s)) as LN. unfold total_messages, OBS_PER_MSG in *.
  assert (B : 0 <= (if 0 <? len (r_buf s) then (len (r_buf s) - 1) / 14 else 0) <= 15).
  { destruct (Z.ltb_spec 0 (len (r_buf s))); [|lia]. split; [apply Z.div_pos; lia|]. apply Z.div_le_upper_bound; lia. }
  rewrite (Z.mod_small (1 + _)) in C2 |- * by lia. split.
  - split; [constructor|]. split; [|split; [cbn; lia|split; [cbn; lia|exact TM]]]. destruct SD as [SD|[SD _]]; [left; exact SD|right; split; [exact SD|reflexivity]].
  - apply (send_loop_ok s _ (len (r_buf s))); try assumption; try lia.
    intros E. rewrite E. reflexivity.
Qed.
Lemma sanity_ok t r : Forall output_ok (base_sanity t r).
Proof. unfold base_sanity. destruct (_ && _); repeat constructor. Qed.
Lemma fill_legacy_ok cs : forall b b' full, Forall Q b -> Forall Q (somes cs) -> fill_legacy b cs = (b', full) -> Forall Q b'.
Proof.
  induction cs as [|c cs IH]; intros b b' full FB FC E; cbn [fill_legacy] in E; [injection E as <- _; exact FB|]. destruct (_ <=? _); [injection E as <- _; exact FB|].
  change (somes (c :: cs)) with ((match c with Some x => [x] | None => [] end) ++ somes cs) in FC. apply Forall_app in FC. destruct FC as [FC1 FC2]. eapply IH; [|exact FC2|exact E]. destruct c as [o|]; [|exact FB]. apply Forall_app. split; assumption.
Qed.
Lemma fill_msm_ok cs : forall b b' full, Forall Q b -> Forall Q cs -> fill_msm b cs = (b', full) -> Forall Q b'.
Proof.
  induction cs as [|c cs IH]; intros b b' full FB FC E; cbn [fill_msm] in E; [injection E as <- _; exact FB|]. destruct (_ <=? _); [injection E as <- _; exact FB|].
  inversion FC; subst. eapply IH; [|eassumption|exact E]. apply Forall_app. split; [exact FB|constructor; [assumption|constructor]].
Qed.
Lemma sender_range stn : 0 <= stn < 4096 -> 61568 <= sender_of stn <= 65535.
Proof.
  intros S. unfold sender_of. split.
  - change 61568 with (Z.lor 0 61568) at 1. assert (E : Z.lor stn 61568 = 61568 + Z.land stn (Z.lnot 61568)).
    { rewrite Z.add_nocarry_lxor.
      - apply Z.bits_inj'. intros n Hn. rewrite Z.lor_spec, Z.lxor_spec, Z.land_spec, Z.lnot_spec by lia. destruct (Z.testbit stn n), (Z.testbit 61568 n); reflexivity.
      - apply Z.bits_inj'. intros n Hn. rewrite !Z.land_spec, Z.lnot_spec, Z.bits_0 by lia. destruct (Z.testbit stn n), (Z.testbit 61568 n); reflexivity. }
    rewrite E. change (Z.lor 0 61568) with 61568. assert (0 <= Z.land stn (Z.lnot 61568)) by (apply Z.land_nonneg; left; lia). lia.
  - assert (Z.lor stn 61568 < 2 ^ 16); [|lia]. apply Z.log2_lt_cancel. rewrite Z.log2_lor by lia. change (Z.log2 (2 ^ 16)) with 16. change (Z.log2 61568) with 15.
    destruct (Z.eq_dec stn 0) as [->|]; [cbn; lia|]. assert (Z.log2 stn < 12) by (apply Z.log2_lt_pow2; lia). lia.
Qed.

(** *** times *)
Definition stamp (t : gtime) : Prop := 0 <= wn t <= 32767 /\ 0 <= tow t < 604800000.
Lemma valid_stamp t : gps_time_valid t = true -> wn t <= 32767 -> stamp t.
Proof. unfold gps_time_valid, stamp, WEEK_MS. intros V W. apply andb_prop in V. destruct V as [V V3]. apply andb_prop in V. destruct V as [V1 V2]. lia. Qed.
Lemma gps_week tw r t : wn r <= 32767 -> compute_gps_message_time tw r = Some t -> wn t <= 32767.
Proof.
  unfold compute_gps_message_time. intros W E. destruct (_ <=? _); [injection E as <-; unfold T_UNKNOWN, WN_UNKNOWN; cbn [wn]; lia|]. destruct (negb _); [discriminate|]. cbv zeta in E.
  assert (X : forall u, (if gps_time_valid u then Some u else None) = Some t -> u = t) by (intros u; destruct (gps_time_valid u); [intros H; injection H as ->; reflexivity|discriminate]).
  apply X in E. subst t. destruct ((_ <? _) && negb (wn r =? INT16_MAX)) eqn:C; [apply andb_prop in C; destruct C as [_ C]; apply negb_true_iff, Z.eqb_neq in C; change INT16_MAX with 32767 in C; cbn [wn]; lia|]. clear - W. match goal with |- context[if ?b then _ else _] => destruct b end; cbn [wn]; lia.
Qed.
Lemma norm_week t u : normalize_gps_time_safe t = Some u -> wn u <= 32767.
Proof. unfold normalize_gps_time_safe. destruct (_ || _) eqn:C; [discriminate|]. intros E. injection E as <-. cbn [wn]. apply orb_false_iff in C. destruct C as [_ C]. apply Z.ltb_ge in C. exact C. Qed.
Lemma borrow_week w t : wn (borrow_weeks w t) <= w \/ 0 <= t.
Proof. unfold borrow_weeks. destruct (Z.ltb_spec t 0); [left|right; lia]. cbn [wn]. assert (t / WEEK_MS < 0) by (apply Z.div_lt_upper_bound; unfold WEEK_MS; lia). lia. Qed.
Lemma borrow_le w t : wn (borrow_weeks w t) <= w.
Proof. destruct (borrow_week w t) as [|H]; [assumption|]. unfold borrow_weeks. destruct (Z.ltb_spec t 0); [lia|]. cbn [wn]. lia. Qed.
Lemma glo_week tod r leap b t : wn r <= 32767 -> compute_glo_time tod r leap = (b, Some t) -> wn t <= 32767.
Proof.
  intros W E. unfold compute_glo_time in E. destruct leap as [leap|]; [|injection E as _ <-; unfold T_UNKNOWN, WN_UNKNOWN; cbn [wn]; lia]. destruct (_ <=? tod); [injection E as _ <-; unfold T_UNKNOWN, WN_UNKNOWN; cbn [wn]; lia|]. destruct (negb _); [discriminate|].
  cbv zeta in E. match type of E with context[borrow_weeks (wn r) ?x] => pose proof (borrow_le (wn r) x) as B; set (u := borrow_weeks (wn r) x) in * end.
  destruct (normalize_gps_time_safe u) as [v|] eqn:N1; [|injection E as _ <-; lia]. apply norm_week in N1.
  destruct (_ <? _); [|injection E as _ <-; exact N1]. match type of E with context[normalize_gps_time_safe ?x] => destruct (normalize_gps_time_safe x) as [x'|] eqn:N2 end.
  - injection E as _ <-. eapply norm_week. exact N2.
  - injection E as _ <-. exact N1.
Qed.
Lemma msm_time_ok c tw (s : rstate) t o : wn (r_time s) <= 32767 -> msm_time (other_out := oo) c tw s = Some (t, o) -> Forall output_ok o /\ (forall u, t = Some u -> stamp u).
Proof.
  intros W E. unfold msm_time in E. destruct c.
  2:{ destruct (compute_glo_time _ _ _) as [b [u|]] eqn:G; cbn [snd] in E; [|injection E as <- <-; split; [constructor|discriminate]]. apply glo_week in G; [|exact W].
      destruct (gps_time_valid u) eqn:V; cbn [negb] in E; [|injection E as <- <-; split; [constructor|discriminate]]. destruct (glo_window _ _ _); injection E as <- <-; [split; [constructor|]|split; [constructor|discriminate]].
      intros u' Eu. injection Eu as <-. apply valid_stamp; assumption. }
  all: destruct (compute_gps_message_time _ _) as [u|] eqn:G; [|discriminate E]; apply gps_week in G; [|exact W]; injection E as <- <-; split; [apply sanity_ok|];
    intros u' Eu; destruct (gps_time_valid u) eqn:V; [|discriminate Eu]; injection Eu as <-; apply valid_stamp; assumption.
Qed.

(** *** adding *)
Lemma inv_set (s : rstate) stn t b : wn (r_time s) <= 32767 -> 0 <= stn < 4096 -> stamp t -> Forall Q b -> inv (set_buf (set_sender (set_buf s (wn t) (tow t) (r_buf s)) (sender_of stn)) (wn t) (tow t) b).
Proof. intros W S (T1 & T2) F. split; [exact F|]. split; [left; apply sender_range; exact S|]. split; [exact T1|]. split; [exact T2|exact W]. Qed.
Lemma inv_last (s : rstate) a b c : inv s -> inv (set_last s a b c). Proof. intros H. exact H. Qed.
Lemma app_ok (a b : list (out obs oo)) : Forall output_ok a -> Forall output_ok b -> Forall output_ok (a ++ b). Proof. intros. apply Forall_app. split; assumption. Qed.
Lemma add_obs_ok (m : legacy_msg obs) t (s s' : rstate) o : inv s -> stamp t -> 0 <= l_stn m < 4096 -> Forall Q (somes (l_cands m)) -> add_obs_to_buffer m t s = Some (s', o) -> inv s' /\ Forall output_ok o.
Proof.
  intros I T S F E. unfold add_obs_to_buffer in E. set (fl := _ && _) in E.
  assert (X : forall s1 o1, (if fl then send_observations s else Some (s, [])) = Some (s1, o1) -> inv s1 /\ Forall output_ok o1).
  { intros s1 o1 H. destruct fl; [eapply send_ok; eassumption|]. injection H as <- <-. split; [exact I|constructor]. }
  destruct (if fl then _ else _) as [[s1 o1]|]; [|discriminate E]. destruct (X _ _ eq_refl) as [I1 O1]. clear X. cbv zeta in E. cbn [r_buf set_sender set_buf] in E.
  destruct (fill_legacy (r_buf s1) (l_cands m)) as [b full] eqn:FL. pose proof (fill_legacy_ok _ _ _ _ (proj1 I1) F FL) as FB. pose proof (inv_set s1 (l_stn m) t b ltac:(apply I1) S T FB) as I2.
  destruct full; [injection E as <- <-; split; [exact I2|apply app_ok; [exact O1|repeat constructor]]|].
  destruct (l_sync m =? 0); [|injection E as <- <-; split; assumption].
  destruct (send_observations _) as [[s2 o2]|] eqn:SO; [|discriminate E]. injection E as <- <-. destruct (send_ok _ _ _ I2 SO) as [I3 O3]. split; [exact I3|apply app_ok; assumption].
Qed.
Lemma add_gps_ok (m : legacy_msg obs) (s s' : rstate) o : inv s -> 0 <= l_stn m < 4096 -> Forall Q (somes (l_cands m)) -> add_gps m s = Some (s', o) -> inv s' /\ Forall output_ok o.
Proof.
  intros I S F E. unfold add_gps in E. destruct (compute_gps_message_time _ _) as [t|] eqn:G; [|discriminate E]. apply gps_week in G; [|apply I]. cbv zeta in E.
  destruct (gps_time_valid t) eqn:V; cbn [negb] in E; [|injection E as <- <-; split; [exact I|apply sanity_ok]]. destruct (is_msm_active _ _); [injection E as <- <-; split; [exact I|apply sanity_ok]|].
  destruct (_ || _); [|injection E as <- <-; split; [exact I|apply sanity_ok]]. destruct (add_obs_to_buffer _ _ _) as [[s1 o1]|] eqn:A; [|discriminate E]. injection E as <- <-.
  destruct (add_obs_ok m t (set_last s t (r_last_glo s) (r_last_msm s)) s1 o1 I (valid_stamp _ V G) S F A) as [A1 A2]. split; [exact A1|apply app_ok; [apply sanity_ok|exact A2]].
Qed.
Lemma add_glo_ok (m : legacy_msg obs) (s s' : rstate) o : inv s -> 0 <= l_stn m < 4096 -> Forall Q (somes (l_cands m)) -> add_glo m s = Some (s', o) -> inv s' /\ Forall output_ok o.
Proof.
  intros I S F E. unfold add_glo in E. assert (N : inv s /\ Forall output_ok []) by (split; [exact I|constructor]).
  destruct (compute_glo_time _ _ _) as [b u] eqn:G. destruct b; [|injection E as <- <-; exact N]. destruct u as [t|]; [|injection E as <- <-; exact N]. apply glo_week in G; [|apply I].
  destruct (gps_time_valid t) eqn:V; cbn [negb] in E; [|injection E as <- <-; exact N]. destruct (negb _); [injection E as <- <-; exact N|]. destruct (is_msm_active _ _); [injection E as <- <-; exact N|].
  destruct (_ || _); [|injection E as <- <-; exact N]. exact (add_obs_ok m t (set_last s (r_last_gps s) t (r_last_msm s)) s' o I (valid_stamp _ V G) S F E).
Qed.
Lemma add_msm_ok c (m : msm_msg obs) (s s' : rstate) o : inv s -> 0 <= m_stn m < 4096 -> Forall Q (m_cands m) -> add_msm c m s = Some (s', o) -> inv s' /\ Forall output_ok o.
Proof.
  intros I S F E. unfold add_msm in E. destruct (msm_time c (m_tow_ms m) s) as [[u o0]|] eqn:T; [|discriminate E]. apply msm_time_ok in T; [|apply I]. destruct T as [O0 ST].
  destruct u as [t|]; [|injection E as <- <-; split; assumption]. specialize (ST _ eq_refl). destruct (_ && _); [injection E as <- <-; split; assumption|]. cbv zeta in E.
  set (s1 := if _ && (0 <? len (r_buf s)) then _ else s) in E.
  assert (I1 : inv s1). { unfold s1. destruct (_ && _); [|exact I]. destruct I as (_ & SD & _ & _ & W). split; [constructor|]. split; [|split; [cbn; lia|split; [cbn; lia|exact W]]]. destruct SD as [SD|[SD _]]; [left; exact SD|right; split; [exact SD|reflexivity]]. }
  clearbody s1. apply (inv_last s1 t t t) in I1. set (s2 := set_last s1 t t t) in *. clearbody s2. set (fl := negb (len (r_buf s2) =? 0) && _) in E.
  assert (X : forall s3 o3, (if fl then match send_observations s2 with None => None | Some (s, o') => Some (s, ONotEmpty :: o') end else Some (s2, [])) = Some (s3, o3) -> inv s3 /\ Forall output_ok o3).
  { intros s3 o3 H. destruct fl; [|injection H as <- <-; split; [exact I1|constructor]]. destruct (send_observations s2) as [[s4 o4]|] eqn:SO; [|discriminate H]. injection H as <- <-. destruct (send_ok _ _ _ I1 SO) as [A B]. split; [exact A|constructor; [exact Logic.I|exact B]]. }
  destruct (if fl then _ else _) as [[s3 o3]|]; [|discriminate E]. destruct (X _ _ eq_refl) as [I3 O3]. clear X. cbn [r_buf set_sender set_buf] in E.
  destruct (fill_msm (r_buf s3) (m_cands m)) as [b full] eqn:FL. pose proof (fill_msm_ok _ _ _ _ (proj1 I3) F FL) as FB. pose proof (inv_set s3 (m_stn m) t b ltac:(apply I3) S ST FB) as I4.
  injection E as <- <-. split; [exact I4|]. apply app_ok; [exact O0|apply app_ok; [exact O3|]]. destruct full; repeat constructor.
Qed.

Context (legacy_dec : Z -> list Z -> option (legacy_msg obs)) (msm_dec : Z -> list Z -> option (msm_msg obs)) (utc_offset : gtime -> Z) (other : Z -> list Z -> rstate -> aux * list oo).
Lemma decode_ok tin p (s s' : rstate) o : (forall m, legacy_dec (message_type p) p = Some m -> 0 <= l_stn m < 4096 /\ Forall Q (somes (l_cands m))) -> (forall m, msm_dec (message_type p) p = Some m -> 0 <= m_stn m < 4096 /\ Forall Q (m_cands m)) ->
  inv s -> (forall ref, tin = Some ref -> wn ref <= 32767) -> decode_payload legacy_dec msm_dec utc_offset other tin p s = Some (s', o) -> inv s' /\ Forall output_ok o.
Proof.
  intros LD MD I TI E. unfold decode_payload in E. destruct (len p <? 2); [injection E as <- <-; split; [exact I|constructor]|]. cbv zeta in E.
  set (s0 := set_time s _) in E. assert (I0 : inv s0). { destruct I as (A & B & C & D & _). split; [exact A|]. split; [exact B|]. split; [exact C|]. split; [exact D|]. cbn [r_time s0 set_time]. destruct tin as [t|]; [exact (TI _ eq_refl)|cbn; lia]. }
  clearbody s0. destruct (match tin with Some _ => false | None => _ end); [injection E as <- <-; split; [exact I0|constructor]|].
  set (s1 := match tin with Some t => _ | None => s0 end) in E. assert (I1 : inv s1) by (unfold s1; destruct tin; exact I0). clearbody s1.
  assert (FIN : forall (r : option (rstate * list (out obs oo))) (fl : bool), (forall s2 o2, r = Some (s2, o2) -> inv s2 /\ Forall output_ok o2) ->
     match r with None => None | Some (s, o) => if fl then match send_observations s with None => None | Some (s, o') => Some (s, o ++ o') end else Some (s, o) end = Some (s', o) -> inv s' /\ Forall output_ok o).
  { clear. intros r fl X E. destruct r as [[s2 o2]|]; [|discriminate E]. destruct (X _ _ eq_refl) as [X1 X2]. destruct fl; [|injection E as <- <-; split; assumption].
    destruct (send_observations s2) as [[s3 o3]|] eqn:SO; [|discriminate E]. injection E as <- <-. destruct (send_ok _ _ _ X1 SO) as [A B]. split; [exact A|apply app_ok; assumption]. }
  eapply FIN; [|exact E]. clear E FIN. intros s2 o2 X. assert (N : inv s1 /\ Forall output_ok []) by (split; [exact I1|constructor]). destruct (kind_of (message_type p)) as [| |c|].
  - destruct (legacy_dec _ _) as [m|]; [|injection X as <- <-; exact N]. destruct (LD _ eq_refl) as [L1 L2]. eapply add_gps_ok; eassumption.
  - destruct (legacy_dec _ _) as [m|]; [|injection X as <- <-; exact N]. destruct (r_leap s1); [|injection X as <- <-; exact N]. destruct (LD _ eq_refl) as [L1 L2]. eapply add_glo_ok; eassumption.
  - destruct (msm_dec _ _) as [m|]; [|injection X as <- <-; exact N]. destruct (MD _ eq_refl) as [L1 L2]. eapply add_msm_ok; eassumption.
  - destruct (other _ _ _) as [a os]. injection X as <- <-. split; [exact I1|]. apply Forall_forall. intros x Hx. apply in_map_iff in Hx. destruct Hx as (y & <- & _). exact Logic.I.
Qed.
End Gen.
