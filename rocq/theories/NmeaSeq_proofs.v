(** Lemmas for C50: observation sequences in the NMEA converter. *)
From Coq Require Import Reals Lra Sorted.
From Flocq Require Import Core IEEE754.Binary IEEE754.Bits.
From Verif Require Import Base Double_model Double_proofs Esf_proofs Signals_model RtcmMsm_model RtcmLegacy_model Sbp2Msm_model Sbp2Rtcm_model Sbp2Rtcm_proofs
  NmeaText_model NmeaTime_model Nmea_model NmeaState_model NmeaState_spec NmeaState_proofs ObsBuffer_spec ObsBuffer_proofs.
Open Scope Z_scope.

Lemma dabs_spec x : dfin x = true -> dfin (dabs x) = true /\ dR (dabs x) = Rabs (dR x).
Proof.
  intros F. destruct x as [b|b|b pl H|b m e H]; try discriminate F.
  - split; [reflexivity|]. cbn. rewrite Rabs_R0. reflexivity.
  - split; [reflexivity|]. unfold dR, dabs, B2R. rewrite <- F2R_Zabs. f_equal. unfold cond_Zopp. destruct b; reflexivity.
Qed.
Lemma count_range m : 0 <= om_nobs m < 256 -> 0 <= om_count m < 16.
Proof. intros. apply Z.mod_pos_bound. lia. Qed.

(** the specification's sequence *)
Definition seq_ok (ms : list obsm) : Prop := one_epoch ms /\ Forall obs_ok ms.
Lemma extend_ok ms m : seq_ok ms -> obs_ok m -> seq_ok (extend ms m).
Proof.
  intros [[C T] F] O. unfold extend. destruct (Z.eqb_spec (om_count m) 0) as [Z0|NZ].
  - split; [|constructor; [exact O|constructor]]. split.
    + intros [|i] x E; [injection E as <-; exact Z0|destruct i; discriminate].
    + intros x y [<-|[]] [<-|[]]. auto.
  - destruct ms as [|m0 ms]; [split; [split; [intros [|i] x E; discriminate|intros x y []]|constructor]|].
    destruct (same_time m0 m) eqn:S; cbn [andb]; [|split; [split; assumption|exact F]].
    destruct (Z.eqb_spec (om_count m) (len (m0 :: ms))) as [L|]; [|split; [split; assumption|exact F]].
    unfold same_time in S. apply andb_prop in S. destruct S as [S1 S2]. apply Z.eqb_eq in S1, S2. set (l := m0 :: ms) in *.
    assert (I0 : In m0 l) by (left; reflexivity). split.
    + split.
      * intros i x E. destruct (Nat.lt_ge_cases i (length l)) as [LT|GE].
        -- rewrite nth_error_app1 in E by exact LT. apply C. exact E.
        -- rewrite nth_error_app2 in E by exact GE. destruct (i - length l)%nat as [|j] eqn:D; [|destruct j; discriminate]. injection E as <-. rewrite L. unfold len. lia.
      * intros x y X Y. apply in_app_or in X, Y. destruct X as [X|[<-|[]]], Y as [Y|[<-|[]]].
        -- apply T; assumption.
        -- destruct (T x m0 X I0). split; congruence.
        -- destruct (T m0 y I0 Y). split; congruence.
        -- auto.
    + apply Forall_app. split; [exact F|]. constructor; [exact O|constructor].
Qed.
Lemma seq_len ms : seq_ok ms -> len ms <= 16.
Proof.
  intros [[C _] F]. destruct (Z.le_gt_cases (len ms) 16) as [|G]; [assumption|]. unfold len in G.
  destruct (nth_error ms 16) as [m|] eqn:E; [|apply nth_error_None in E; lia].
  pose proof (C _ _ E). rewrite Forall_forall in F. destruct (F m (nth_error_In _ _ E)) as (_ & _ & N & _). pose proof (count_range m N). lia.
Qed.
Lemma flat_len ms : Forall obs_ok ms -> len (flat_map all_sids ms) <= 14 * len ms.
Proof.
  induction 1 as [|m ms O F IH]; [reflexivity|]. cbn [flat_map]. rewrite len_app, len_cons. destruct O as (_ & _ & _ & L & _).
  assert (len (all_sids m) = len (om_obs m)) by (unfold all_sids; apply len_map). lia.
Qed.
Lemma valid_all os : Forall (fun o : sigid * Z => 0 <= snd o < 256) os -> filter (fun o => Z.land (snd o) OBSERVATION_VALID =? 0) os = os.
Proof.
  induction 1 as [|o os O F IH]; [reflexivity|]. cbn [filter].
  replace (Z.land (snd o) OBSERVATION_VALID) with 0; [cbn; rewrite IH; reflexivity|]. symmetry.
  apply Z.bits_inj'. intros n Hn. rewrite Z.land_spec, Z.bits_0. unfold OBSERVATION_VALID. change 0x1000000 with (2 ^ 24). rewrite Z.pow2_bits_eqb by lia.
  destruct (Z.eqb_spec 24 n) as [<-|]; [|apply andb_false_r].
  replace (Z.testbit (snd o) 24) with false; [reflexivity|]. symmetry. rewrite <- (Z.mod_small (snd o) (2 ^ 8)) by (cbn; lia). apply Z.mod_pow2_bits_high. lia.
Qed.
Lemma in_sequence_subseq l : forall ms, Forall obs_ok l -> exists a b, fold_left extend l ms = a ++ b /\ subseq b l /\ (a = [] \/ a = ms).
Proof.
  induction l as [|m l IH]; intros ms F; cbn [fold_left].
  - exists ms, []. rewrite app_nil_r. split; [reflexivity|]. split; [constructor|auto].
  - inversion F as [|? ? O F']; subst. destruct (IH (extend ms m) F') as (a & b & E & S & A). rewrite E.
    destruct A as [-> | ->]; [exists [], b; split; [reflexivity|]; split; [constructor; exact S|auto]|].
    unfold extend. destruct (om_count m =? 0); [exists [], (m :: b); split; [reflexivity|]; split; [apply (subseq_app_l [m]); exact S|auto]|].
    destruct ms as [|m0 ms]; [exists [], b; split; [reflexivity|]; split; [constructor; exact S|auto]|].
    destruct (_ && _).
    + exists (m0 :: ms), (m :: b). rewrite <- app_assoc. split; [reflexivity|]. split; [apply (subseq_app_l [m]); exact S|auto].
    + exists (m0 :: ms), b. split; [reflexivity|]. split; [constructor; exact S|auto].
Qed.

Section P.
Variable code_of : Z -> code.
Variable snd_ : kind -> nst -> option (nst * list sent).
Variable eps : dbl.
Hypothesis snd_frame : forall k s s' txt, snd_ k s = Some (s', txt) -> exists c, s' = with_cog s c.
Hypothesis eps_fin : dfin eps = true.
Hypothesis eps_range : (0 <= dR eps < / 2048)%R.

Definition Inv (s : nst) (ms : list obsm) : Prop :=
  seq_ok ms /\ n_sids s = flat_map all_sids ms /\
  match ms with
  | [] => n_seq_count s = 0 /\ n_obs_wn s = 0 /\ n_obs_tow s = 0
  | m0 :: _ => n_seq_count s = len ms - 1 /\ n_obs_wn s = om_wn m0 /\ n_obs_tow s = om_tow m0
  end.
Lemma inv_frame s t ms : n_sids s = n_sids t -> n_seq_count s = n_seq_count t -> n_obs_wn s = n_obs_wn t -> n_obs_tow s = n_obs_tow t -> Inv s ms -> Inv t ms.
Proof. intros A B C D (I1 & I2 & I3). split; [exact I1|]. split; [congruence|]. destruct ms; rewrite <- B, <- C, <- D; exact I3. Qed.

Lemma diff_check m wn tow : obs_ok m -> 0 <= tow < 604800000 -> 0 <= wn <= 3550 ->
  exists d, gpsdiff (om_wn m) (om_tow m) wn tow = Some d /\ dgtb (dabs d) eps || negb (wn =? om_wn m) = negb ((tow =? om_tow m) && (wn =? om_wn m)).
Proof.
  intros (T & W & _) T2 W2. unfold gpsdiff.
  destruct (diff_value (mkohdr (om_tow m) 0 (om_wn m) 0) (mkohdr tow 0 wn 0)) as (d & E & FD & LT & EQ & GT); cbn [oh_tow oh_wn]; try lia.
  exists d. split; [exact E|]. destruct (dabs_spec d FD) as [FA VA]. unfold dgtb. rewrite dltb_spec by assumption. rewrite VA.
  unfold abs_ms in *. cbn [oh_tow oh_wn] in *.
  destruct (Z.eqb_spec wn (om_wn m)) as [->|NW]; cbn [negb]; [|rewrite orb_true_r, andb_false_r; reflexivity].
  rewrite orb_false_r, andb_true_r. destruct (Z.eqb_spec tow (om_tow m)) as [->|NT]; cbn [negb].
  - apply Rlt_bool_false. rewrite EQ by lia. rewrite Rabs_R0. lra.
  - apply Rlt_bool_true. assert (C : om_tow m < tow \/ tow < om_tow m) by lia. destruct C as [C|C].
    + specialize (LT ltac:(lia)). rewrite Rabs_left by lra. lra.
    + specialize (GT ltac:(lia)). rewrite Rabs_right by lra. lra.
Qed.

Lemma obs_step s ms m : Inv s ms -> obs_ok m ->
  (exists t, Inv t (extend ms m) /\ n_seq_total t = om_total m /\ n_slot t = n_slot s /\ sbp2nmea_obs snd_ eps s m = check_nmea_send snd_ t) \/
  (exists t, Inv t ms /\ extend ms m = ms /\ n_seq_total t = om_total m /\ sbp2nmea_obs snd_ eps s m = Some (t, [])).
Proof.
  intros (SO & SI & ST) O. pose proof (extend_ok ms m SO O) as XO. unfold sbp2nmea_obs. cbv zeta.
  assert (O' := O). destruct O' as (T & W & N & L & FL). pose proof (count_range m N) as CR. unfold extend in *.
  rewrite (valid_all _ FL).
  assert (CAP : forall x, seq_ok x -> 255 <? len (flat_map all_sids x) = false).
  { intros x X. pose proof (seq_len x X). pose proof (flat_len x (proj2 X)). apply Z.ltb_ge. lia. }
  destruct (Z.eqb_spec (om_count m) 0) as [Z0|NZ].
  - left. cbn [app]. assert (E : List.map fst (om_obs m) = flat_map all_sids [m]) by (cbn [flat_map]; rewrite app_nil_r; reflexivity).
    rewrite E, (CAP [m] XO). eexists. split; [|split; [|split; [|reflexivity]]]; [|reflexivity|reflexivity].
    split; [exact XO|]. unfold with_obs. cbn [n_sids n_seq_count n_obs_wn n_obs_tow]. split; [reflexivity|]. rewrite Z0. auto.
  - assert (RG : 0 <= n_obs_tow s < 604800000 /\ 0 <= n_obs_wn s <= 3550).
    { destruct ms as [|m0 ms]; [destruct ST as (_ & -> & ->); lia|]. destruct ST as (_ & -> & ->). destruct SO as [_ F]. inversion F as [|? ? O0 _]; subst.
      destruct O0 as (T0 & W0 & _). lia. }
    destruct (diff_check m (n_obs_wn s) (n_obs_tow s) O (proj1 RG) (proj2 RG)) as (d & -> & DC). rewrite DC.
    assert (REJ : extend ms m = ms -> exists t, Inv t ms /\ ms = ms /\ n_seq_total t = om_total m /\ Some (with_obs s (n_sids s) (n_seq_count s) (om_total m) (n_obs_wn s) (n_obs_tow s), @nil out) = Some (t, [])).
    { intros X. eexists. split; [|split; [|split; [|reflexivity]]]; [|reflexivity|reflexivity]. apply (inv_frame s); try reflexivity. split; [exact SO|]. split; [exact SI|exact ST]. }
    destruct ms as [|m0 ms].
    + destruct ST as (S1 & S2 & S3). rewrite S2. replace (0 =? om_wn m) with false by lia. rewrite andb_false_r. cbn [negb orb].
      right. unfold extend in REJ. destruct (Z.eqb_spec (om_count m) 0); [contradiction|]. specialize (REJ eq_refl). rewrite S2 in REJ. exact REJ.
    + destruct ST as (S1 & S2 & S3). rewrite S1, S2, S3 in *. fold (same_time m0 m) in *. unfold extend in REJ. destruct (Z.eqb_spec (om_count m) 0); [contradiction|].
      replace (len (m0 :: ms) - 1 + 1) with (len (m0 :: ms)) in * by lia. rewrite (Z.eqb_sym (len (m0 :: ms))).
      unfold same_time at 1. unfold same_time in XO, REJ |- *.
      destruct ((om_tow m0 =? om_tow m) && (om_wn m0 =? om_wn m)); cbn [negb orb andb] in *; [|right; apply REJ; reflexivity].
      destruct (Z.eqb_spec (om_count m) (len (m0 :: ms))) as [LC|]; cbn [negb] in *; [|right; apply REJ; reflexivity].
      left. assert (E : (n_sids s ++ List.map fst (om_obs m))%list = flat_map all_sids ((m0 :: ms) ++ [m])).
      { rewrite flat_map_app, SI. cbn [flat_map]. rewrite app_nil_r. reflexivity. }
      rewrite E, (CAP _ XO). eexists. split; [|split; [|split; [|reflexivity]]]; [|reflexivity|reflexivity].
      split; [exact XO|]. unfold with_obs. cbn [n_sids n_seq_count n_obs_wn n_obs_tow]. split; [reflexivity|]. cbn [app]. rewrite LC.
      assert (I : In m ((m0 :: ms) ++ [m])) by (apply in_or_app; right; left; reflexivity).
      destruct XO as [[_ TT] _]. destruct (TT m m0 I ltac:(left; reflexivity)) as [-> ->].
      split; [|auto]. replace (m0 :: (ms ++ [m])) with ((m0 :: ms) ++ [m]) by reflexivity. rewrite len_app. rewrite (len_cons m), (@len_nil obsm). lia.
Qed.
Lemma step_inv s c s' os ms : Inv s ms -> call_ok c -> step code_of snd_ eps s c = Some (s', os) ->
  Inv s' (fold_left extend (obs_calls [c]) ms) /\ n_seq_total s' = match c with CObs m => om_total m | _ => n_seq_total s end.
Proof.
  intros I OK E.
  assert (SB : forall a b, same_but a b -> forall x, Inv a x -> Inv b x).
  { intros a b (A1 & A2 & _ & A4 & A5 & _) x. apply inv_frame; assumption. }
  destruct c as [id m|m|k r|b|f|a b]; cbn [step obs_calls fold_left] in *; try (injection E as <- <-; split; [|reflexivity]; apply (inv_frame s); try reflexivity; exact I).
  - unfold sbp2nmea in E. cbv zeta in E.
    assert (IM : Inv (check_wagon (update_mode s (recode s id)) (recode s id)) ms /\ n_seq_total (check_wagon (update_mode s (recode s id)) (recode s id)) = n_seq_total s).
    { set (i := recode s id). unfold check_wagon, update_mode. destruct (mode_eqb (n_req s) mBEST && mode_eqb (n_act s) mGNSS && _); destruct (negb _); try destruct i;
        split; try reflexivity; apply (inv_frame s); try reflexivity; exact I. }
    destruct IM as [IM IT]. destruct (discard _ _ _).
    + injection E as <- <-. auto.
    + apply (check_send_kind code_of snd_ snd_frame) in E. destruct E as [SM _]. split; [|destruct SM as (_ & _ & A3 & _); rewrite <- A3; exact IT].
      eapply SB; [exact SM|]. eapply inv_frame; [..|exact IM]; reflexivity.
  - destruct (obs_step s ms m I OK) as [(t & IT & TT & _ & EE)|(t & IT & XM & TT & EE)]; rewrite EE in E.
    + apply (check_send_kind code_of snd_ snd_frame) in E. destruct E as [SM _]. split; [eapply SB; [exact SM|exact IT]|]. destruct SM as (_ & _ & A3 & _). congruence.
    + injection E as <- <-. rewrite XM. auto.
Qed.
Lemma obs_calls_cons c cs : obs_calls (c :: cs) = obs_calls [c] ++ obs_calls cs. Proof. destruct c; reflexivity. Qed.
Definition last_total (d : Z) (ms : list obsm) : Z := match rev ms with [] => d | m :: _ => om_total m end.
Lemma last_total_cons d m ms : last_total d (m :: ms) = last_total (om_total m) ms.
Proof. unfold last_total. cbn [rev]. destruct (rev ms); reflexivity. Qed.
Lemma run_inv cs : forall s s' os ms, Inv s ms -> Forall call_ok cs -> run code_of snd_ eps s cs = Some (s', os) ->
  Inv s' (fold_left extend (obs_calls cs) ms) /\ n_seq_total s' = last_total (n_seq_total s) (obs_calls cs).
Proof.
  induction cs as [|c cs IH]; intros s s' os ms I F E; cbn [run] in E.
  - injection E as <- <-. split; [exact I|reflexivity].
  - inversion F as [|? ? OC F']; subst. destruct (step _ _ _ s c) as [[s1 o1]|] eqn:E1; [|discriminate]. destruct (run _ _ _ s1 cs) as [[s2 o2]|] eqn:E2; [|discriminate]. injection E as <- <-.
    destruct (step_inv _ _ _ _ _ I OC E1) as [I1 T1]. rewrite obs_calls_cons, fold_left_app. destruct (IH _ _ _ _ I1 F' E2) as [I2 T2]. split; [exact I2|].
    rewrite T2, T1. destruct c; try reflexivity. cbn [obs_calls app]. rewrite last_total_cons. reflexivity.
Qed.
Lemma init_inv req : Inv (init req) [].
Proof. split; [|split; [reflexivity|auto]]. split; [|constructor]. split; [intros [|i] x E; discriminate|intros x y []]. Qed.
(** the converter cannot run out of room for observations *)
Lemma obs_capacity s ms m : Inv s ms -> obs_ok m -> sbp2nmea_obs snd_ eps s m = None -> exists t, check_nmea_send snd_ t = None.
Proof. intros I O E. destruct (obs_step s ms m I O) as [(t & _ & _ & _ & EE)|(t & _ & _ & _ & EE)]; rewrite EE in E; [exists t; exact E|discriminate]. Qed.
End P.
