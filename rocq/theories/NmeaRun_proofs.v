(** Lemmas about whole histories of the SBP to NMEA converter. *)
From Coq Require Import Reals Lra Sorted.
From Flocq Require Import Core IEEE754.Binary IEEE754.Bits.
From Verif Require Import Base Double_model Double_proofs Esf_proofs Signals_model RtcmMsm_model RtcmLegacy_model Sbp2Msm_model Sbp2Rtcm_model Sbp2Rtcm_proofs
  NmeaText_model NmeaTime_model Nmea_model NmeaState_model NmeaState_spec NmeaState_proofs Nmea_spec.
Open Scope Z_scope.
Open Scope list_scope.

Section P.
Variable code_of : Z -> code.
Variable snd_ : kind -> nst -> option (nst * list sent).
Variable eps : dbl.
Hypothesis snd_frame : forall k s s' txt, snd_ k s = Some (s', txt) -> exists c, s' = with_cog s c.
Notation step := (step code_of snd_ eps).
Notation run := (run code_of snd_ eps).

Lemma run_app cs1 : forall cs2 s, run s (cs1 ++ cs2) =
  match run s cs1 with Some (s1, o1) => match run s1 cs2 with Some (s2, o2) => Some (s2, o1 ++ o2) | None => None end | None => None end.
Proof.
  induction cs1 as [|c cs1 IH]; intros cs2 s; cbn [app NmeaState_model.run].
  - destruct (run s cs2) as [[s2 o2]|]; reflexivity.
  - destruct (step s c) as [[s1 o1]|]; [|reflexivity]. rewrite IH. destruct (run s1 cs1) as [[s2 o2]|]; [|reflexivity]. destruct (run s2 cs2) as [[s3 o3]|]; [|reflexivity]. rewrite app_assoc. reflexivity.
Qed.
(** the call that made an emission *)
Lemma run_emission cs : forall s s' os o, run s cs = Some (s', os) -> In o os ->
  exists cs1 c cs2 s1 o1 s2 o2, cs = cs1 ++ c :: cs2 /\ run s cs1 = Some (s1, o1) /\ step s1 c = Some (s2, o2) /\ In o o2.
Proof.
  induction cs as [|c cs IH]; intros s s' os o E I; cbn [NmeaState_model.run] in E.
  - injection E as <- <-. destruct I.
  - destruct (step s c) as [[s1 o1]|] eqn:E1; [|discriminate]. destruct (run s1 cs) as [[s2 o2]|] eqn:E2; [|discriminate]. injection E as <- <-.
    apply in_app_or in I. destruct I as [I|I].
    + exists [], c, cs, s, [], s1, o1. repeat split; assumption.
    + destruct (IH s1 s2 o2 o E2 I) as (a & b & d & t1 & p1 & t2 & p2 & -> & R & S & J). exists (c :: a), b, d, t1, (o1 ++ p1), t2, p2. split; [reflexivity|]. split; [|split; assumption].
      cbn [NmeaState_model.run]. rewrite E1, R. reflexivity.
Qed.
Lemma run_snoc cs c s s1 o1 s2 o2 : run s cs = Some (s1, o1) -> step s1 c = Some (s2, o2) -> run s (cs ++ [c]) = Some (s2, o1 ++ o2).
Proof. intros A B. rewrite run_app, A. cbn [NmeaState_model.run]. rewrite B. rewrite app_nil_r. reflexivity. Qed.

(** message store *)
Lemma slots_run cs : forall s s' os, run s cs = Some (s', os) -> n_req s' = n_req s /\ forall id, n_slot s' id = last_msg (is_glo code_of) (n_req s) id cs (n_slot s id).
Proof.
  induction cs as [|c cs IH]; intros s s' os E; cbn [NmeaState_model.run] in E.
  - injection E as <- <-. split; reflexivity.
  - destruct (step s c) as [[s1 o1]|] eqn:E1; [|discriminate]. destruct (run s1 cs) as [[s2 o2]|] eqn:E2; [|discriminate]. injection E as <- <-.
    destruct (act_step code_of snd_ eps snd_frame _ _ _ _ E1) as [R _]. destruct (IH _ _ _ E2) as [R2 H]. split; [congruence|]. intros id. rewrite H, R.
    pose proof (slot_step code_of snd_ eps snd_frame _ _ _ _ E1) as SL. destruct c as [i m|m|k r|b|f|a b]; cbn [last_msg]; try (rewrite SL; reflexivity).
    assert (RC : recode s i = effective (n_req s) i) by (unfold recode, effective; destruct (n_req s), i; reflexivity).
    assert (DC : discard code_of (effective (n_req s) i) m = thrown_away (is_glo code_of) (effective (n_req s) i) m) by (unfold discard, thrown_away; destruct (effective _ _); reflexivity).
    rewrite RC, DC in SL. f_equal. destruct (thrown_away _ _ _).
    + rewrite SL. destruct (sid_eq_dec _ _); reflexivity.
    + rewrite SL. destruct (sid_eq_dec id (effective (n_req s) i)) as [->|N].
      * destruct (sid_eq_dec (effective (n_req s) i) (effective (n_req s) i)); [reflexivity|contradiction].
      * destruct (sid_eq_dec (effective (n_req s) i) id); [congruence|reflexivity].
Qed.
Lemma mode_init cs req s' os : run (init req) cs = Some (s', os) -> n_req s' = req /\ n_act s' = mode_after req cs.
Proof.
  intros E. destruct (act_run code_of snd_ eps snd_frame _ _ _ _ E) as [A B]; [discriminate|]. split; [exact A|]. rewrite B. unfold mode_after. cbn [n_req n_act init mode_eqb].
  rewrite andb_true_r. reflexivity.
Qed.
(** satellites *)
Lemma sids_step s c s' os : step s c = Some (s', os) -> n_sids s' = n_sids s \/ exists m, c = CObs m /\ incl (n_sids s') (n_sids s ++ all_sids m).
Proof.
  intros E. destruct c as [id m|m|k r|b|f|a b]; cbn [NmeaState_model.step] in E; try (injection E as <- <-; left; reflexivity).
  - left. unfold sbp2nmea in E. cbv zeta in E.
    assert (UM : forall t id, n_sids (check_wagon (update_mode t id) id) = n_sids t).
    { intros t j. unfold check_wagon, update_mode. destruct (mode_eqb (n_req t) mBEST && mode_eqb (n_act t) mGNSS && _); destruct (negb _); try destruct j; reflexivity. }
    destruct (discard _ _ _); [injection E as <- <-; apply UM|]. apply (check_send_kind code_of snd_ snd_frame) in E. destruct E as [SM _]. apply same_slot in SM. destruct SM as (_ & _ & SM).
    rewrite <- SM. unfold msg_set. cbn [n_sids]. apply UM.
  - unfold sbp2nmea_obs in E. cbv zeta in E. destruct (if om_count m =? 0 then _ else _) as [[|]|]; [|destruct (255 <? _); [discriminate|]|discriminate].
    + injection E as <- <-. left. reflexivity.
    + right. exists m. split; [reflexivity|]. apply (check_send_kind code_of snd_ snd_frame) in E. destruct E as [SM _]. apply same_slot in SM. destruct SM as (_ & _ & SM). rewrite <- SM. unfold with_obs. cbn [n_sids].
      intros g I. apply in_app_or in I. apply in_or_app. destruct I as [I|I].
      * left. destruct (om_count m =? 0); [destruct I|exact I].
      * right. unfold all_sids. apply in_map_iff in I. destruct I as (o & <- & I). apply filter_In in I. apply in_map. apply I.
Qed.
Lemma wf_step s c s' os : wf_state s -> wf_call c -> step s c = Some (s', os) -> wf_state s'.
Proof.
  intros [W1 W2] C E. split.
  - pose proof (slot_step code_of snd_ eps snd_frame _ _ _ _ E) as SL. intros id. destruct c as [i m|m|k r|b|f|a b]; try (rewrite SL; apply W1).
    destruct (discard _ _ _); rewrite SL; [apply W1|]. cbn [wf_call] in C. destruct (sid_eq_dec _ _); [exact C|apply W1].
  - destruct (sids_step _ _ _ _ E) as [->|(m & -> & I)]; [exact W2|]. apply Forall_forall. intros g G. apply I in G. apply in_app_or in G. destruct G as [G|G].
    + rewrite Forall_forall in W2. apply W2, G.
    + unfold all_sids in G. apply in_map_iff in G. destruct G as (o & <- & G). cbn [wf_call] in C. rewrite Forall_forall in C. apply C, G.
Qed.
Lemma wf_init req : wf_state (init req). Proof. split; [intros id; exact I|constructor]. Qed.
Lemma wf_run cs : forall s s' os, wf_state s -> Forall wf_call cs -> run s cs = Some (s', os) -> wf_state s'.
Proof.
  induction cs as [|c cs IH]; intros s s' os W F E; cbn [NmeaState_model.run] in E.
  - injection E as <- <-. exact W.
  - inversion F; subst. destruct (step s c) as [[s1 o1]|] eqn:E1; [|discriminate]. destruct (run s1 cs) as [[s2 o2]|] eqn:E2; [|discriminate]. injection E as <- <-.
    eapply IH; [eapply wf_step; eassumption|assumption|exact E2].
Qed.
Lemma wf_same s t : same_but s t -> wf_state s -> wf_state t.
Proof. intros SM [W1 W2]. apply same_slot in SM. destruct SM as (A & _ & B). unfold wf_state. rewrite <- A, <- B. auto. Qed.

Lemma config_step s c s' os : step s c = Some (s', os) ->
  (forall k, n_rate s' k = match c with CRate j r => if kind_eq_dec j k then r else n_rate s k | _ => n_rate s k end) /\ n_freq s' = match c with CFreq f => f | _ => n_freq s end.
Proof.
  intros E. assert (SB : forall a b, same_but a b -> n_rate b = n_rate a /\ n_freq b = n_freq a) by (unfold same_but; intros a b H; decompose [and] H; split; congruence).
  destruct c as [id m|m|k r|b|f|a b]; cbn [NmeaState_model.step] in E.
  - assert (UM : forall t id, n_rate (check_wagon (update_mode t id) id) = n_rate t /\ n_freq (check_wagon (update_mode t id) id) = n_freq t).
    { intros t j. unfold check_wagon, update_mode. destruct (mode_eqb (n_req t) mBEST && mode_eqb (n_act t) mGNSS && _); destruct (negb _); try destruct j; split; reflexivity. }
    unfold sbp2nmea in E. cbv zeta in E. destruct (UM s (recode s id)) as [U1 U2]. destruct (discard _ _ _).
    + injection E as <- <-. rewrite U1, U2. split; reflexivity.
    + apply (check_send_kind code_of snd_ snd_frame) in E. destruct E as [SM _]. destruct (SB _ _ SM) as [A B]. rewrite A, B. unfold msg_set. cbn [n_rate n_freq]. rewrite U1, U2. split; reflexivity.
  - unfold sbp2nmea_obs in E. cbv zeta in E. destruct (if om_count m =? 0 then _ else _) as [[|]|]; [|destruct (255 <? _); [discriminate|]|discriminate].
    + injection E as <- <-. split; reflexivity.
    + apply (check_send_kind code_of snd_ snd_frame) in E. destruct E as [SM _]. destruct (SB _ _ SM) as [A B]. rewrite A, B. split; reflexivity.
  - injection E as <- <-. split; [|reflexivity]. intros j. unfold set_rate. cbn [n_rate]. destruct (kind_eq_dec j k), (kind_eq_dec k j); congruence.
  - injection E as <- <-. split; reflexivity.
  - injection E as <- <-. split; reflexivity.
  - injection E as <- <-. split; reflexivity.
Qed.
Lemma config_run cs : forall s s' os, run s cs = Some (s', os) -> (forall k, n_rate s' k = last_rate k cs (n_rate s k)) /\ n_freq s' = last_freq cs (n_freq s).
Proof.
  induction cs as [|c cs IH]; intros s s' os E; cbn [NmeaState_model.run] in E.
  - injection E as <- <-. split; reflexivity.
  - destruct (step s c) as [[s1 o1]|] eqn:E1; [|discriminate]. destruct (run s1 cs) as [[s2 o2]|] eqn:E2; [|discriminate]. injection E as <- <-.
    destruct (config_step _ _ _ _ E1) as [A B]. destruct (IH _ _ _ E2) as [C D]. split.
    + intros k. rewrite C, A. destruct c; reflexivity.
    + rewrite D, B. destruct c; reflexivity.
Qed.

(** an emission of a history: the calls up to it, and a state with the messages these have left from which the sentences were built *)
Lemma emission req cs s' os o : run (init req) cs = Some (s', os) -> In o os ->
  exists cs1 cs2 t, cs = cs1 ++ cs2 /\ (Forall wf_call cs1 -> wf_state t) /\
    (forall id, n_slot t id = last_msg (is_glo code_of) req id cs1 zeroed) /\ n_act t = mode_after req cs1 /\ n_req t = req /\
    o_tow o = ref_tow t (o_kind o) /\ option_map snd (snd_ (o_kind o) t) = Some (o_sents o) /\
    check_nmea_rate (last_rate (o_kind o) cs1 0 mod 2 ^ 32) (o_tow o) (last_freq cs1 (fofbits 0)) = Some true /\
    exists s0, same_but s0 t /\ nmea_ready s0 (o_kind o) = Some true /\ exists s1 o1, run (init req) cs1 = Some (s1, o1) /\ same_but s1 t.
Proof.
  intros E I. destruct (run_emission _ _ _ _ _ E I) as (cs1 & c & cs2 & s1 & o1 & s2 & o2 & -> & R1 & S1 & J).
  pose proof (run_snoc _ _ _ _ _ _ _ R1 S1) as R2.
  destruct (step_emission code_of snd_ eps snd_frame _ _ _ _ _ S1 J) as (s0 & SM & L & D & RT & T & t & ST & SN).
  destruct (slots_run _ _ _ _ R2) as [RQ SL]. destruct (mode_init _ _ _ _ R2) as [MR MA].
  assert (S2 : same_but s2 t). { eapply same_trans; [|exact ST]. clear - SM. unfold same_but in *. decompose [and] SM. repeat split; congruence. }
  exists (cs1 ++ [c]), cs2, t. split; [rewrite <- app_assoc; reflexivity|].
  split; [intros F; eapply wf_same; [exact S2|]; eapply wf_run; [apply (wf_init req)|exact F|exact R2]|].
  pose proof (same_slot _ _ S2) as (A & B & C).
  split; [intros id; rewrite <- A; rewrite SL; reflexivity|]. split; [rewrite <- B; exact MA|].
  split; [clear - S2 MR; unfold same_but in S2; decompose [and] S2; congruence|].
  split; [rewrite T; apply ref_same; exact S2|]. split; [exact SN|].
  split.
  { apply due_rate in D. destruct (config_run _ _ _ _ R2) as [C1 C2]. destruct (config_step _ _ _ _ S1) as [C3 C4]. cbn [n_rate n_freq init] in C1, C2.
    replace (n_rate s0 (o_kind o)) with (last_rate (o_kind o) (cs1 ++ [c]) 0) in D.
    - rewrite T. replace (last_freq (cs1 ++ [c]) (fofbits 0)) with (n_freq s1); [exact D|]. rewrite <- C2. rewrite C4. destruct c; try reflexivity. cbn [NmeaState_model.step] in S1. injection S1 as <- <-. destruct J.
    - rewrite <- C1. clear - SM. unfold same_but in SM. decompose [and] SM. congruence. }
  exists s0. split; [exact ST|]. split; [exact (due_ready _ _ _ _ D)|]. exists s2, (o1 ++ o2). split; [exact R2|exact S2].
Qed.

(** the last time of week of a kind is the one of its last emission *)
Lemma last_run cs k : forall s s' os, run s cs = Some (s', os) -> n_last s' k = n_last s k \/ exists o, In o os /\ o_kind o = k /\ o_tow o = n_last s' k.
Proof.
  induction cs as [|c cs IH]; intros s s' os E; cbn [NmeaState_model.run] in E.
  - injection E as <- <-. left. reflexivity.
  - destruct (step s c) as [[s1 o1]|] eqn:E1; [|discriminate]. destruct (run s1 cs) as [[s2 o2]|] eqn:E2; [|discriminate]. injection E as <- <-.
    destruct (IH _ _ _ E2) as [H|(o & I & K & T)]; [|right; exists o; split; [apply in_or_app; right; exact I|auto]]. rewrite H.
    destruct (step_cases _ _ _ _ _ _ _ E1) as [(s0 & C & L & _)|(-> & L & _)]; [|left; rewrite L; reflexivity].
    destruct (check_send_kind code_of snd_ snd_frame _ _ _ C) as [SM X]. specialize (X k). rewrite L in X. destruct (due s0 k (ref_tow s0 k) (n_freq s0)).
    + destruct X as [(txt & t1 & X1 & _) X2]. right. exists (mkout k (ref_tow s0 k) txt). split; [|split; [reflexivity|symmetry; exact X2]].
      apply in_or_app. left. assert (Y : In (mkout k (ref_tow s0 k) txt) (of_kind k o1)) by (rewrite X1; left; reflexivity). unfold of_kind in Y. apply filter_In in Y. apply Y.
    + left. apply X.
Qed.
(** after a message has been stored, every kind whose messages are complete has been sent *)
Lemma complete_sent s id m s' os k : step s (CMsg id m) = Some (s', os) -> discard code_of (recode s id) m = false -> n_act s' = mGNSS -> n_req s' <> mFUSED \/ in_fused k = true -> k <> GSA ->
  (forall i, In i (tow_mask k) -> s_tow (n_slot s' i) = utc_tow s') -> check_nmea_rate (n_rate s' k mod 2 ^ 32) (utc_tow s') (n_freq s') = Some true -> n_last s' k = utc_tow s'.
Proof.
  intros E D A RQ NG TM CR. cbn [NmeaState_model.step] in E. unfold sbp2nmea in E. cbv zeta in E. rewrite D in E. set (s0 := msg_set _ _ _) in E.
  destruct (check_send_kind code_of snd_ snd_frame _ _ _ E) as [SM X]. specialize (X k).
  assert (RF : ref_tow s0 k = utc_tow s') by (rewrite (ref_same _ _ k SM); apply ref_gnss; exact A). rewrite RF in X.
  assert (SB : n_act s0 = n_act s' /\ n_req s0 = n_req s' /\ n_slot s0 = n_slot s' /\ n_rate s0 = n_rate s' /\ n_freq s0 = n_freq s') by (clear - SM; unfold same_but in SM; decompose [and] SM; repeat split; congruence).
  destruct SB as (B1 & B2 & B3 & B4 & B5). destruct (due s0 k (utc_tow s') (n_freq s0)) eqn:DU; [apply X|]. destruct X as [_ X]. rewrite X.
  destruct (Z.eq_dec (n_last s0 k) (utc_tow s')) as [|NL]; [assumption|]. exfalso.
  assert (R : nmea_ready s0 k = Some true).
  { apply ready_iff; [congruence|rewrite B2; exact RQ|exact NG|]. unfold utc_tow in *. rewrite B3. split; [exact NL|exact TM]. }
  unfold due in DU. rewrite R, B4, B5, CR in DU. discriminate DU.
Qed.
End P.
