(** C56: the content of the fields of the NMEA sentences. *)
From Coq Require Import String Reals Lra.
From Flocq Require Import IEEE754.Binary IEEE754.Bits.
From Verif Require Import Base Double_model Double_proofs Signals_model RtcmMsm_model RtcmLegacy_model Sbp2Msm_model Sbp2Rtcm_model NmeaText_model NmeaText_proofs NmeaTime_model NmeaTime_spec NmeaTime_proofs
  Nmea_model Nmea_spec NmeaState_model NmeaState_spec NmeaState_proofs NmeaObs_proofs NmeaSend_proofs NmeaLists_spec NmeaLists_proofs NmeaRun_proofs NmeaExample NmeaFields_spec NmeaFields_proofs NmeaContent_proofs Properties_nmea.
Open Scope Z_scope.
Open Scope list_scope.

Section P.
Variable code_of : Z -> code.
Variable eps : dbl.
Variable snd_ : kind -> nst -> option (nst * list sent).
Hypothesis snd_frame : forall k s s' txt, snd_ k s = Some (s', txt) -> exists c, s' = with_cog s c.

(** ** settings *)
Lemma same_settings a b : same_but a b -> n_base b = n_base a /\ n_cog_thd b = n_cog_thd a /\ n_cog_upd b = n_cog_upd a /\ n_act b = n_act a.
Proof. unfold same_but. intros H. decompose [and] H. repeat split; congruence. Qed.
Lemma um_settings t id : let u := check_wagon (update_mode t id) id in n_base u = n_base t /\ n_cog_thd u = n_cog_thd t /\ n_cog_upd u = n_cog_upd t /\ n_last_cog u = n_last_cog t /\
  (n_act t <> mBEST -> n_act u <> mBEST).
Proof.
  cbv zeta. unfold check_wagon, update_mode. destruct (mode_eqb (n_req t) mBEST && mode_eqb (n_act t) mGNSS && _); destruct (negb _); try destruct id; repeat split; cbn; congruence.
Qed.
Lemma settings_step s c s' os : step code_of snd_ eps s c = Some (s', os) ->
  n_base s' = match c with CBase b => b | _ => n_base s end /\ (n_cog_thd s', n_cog_upd s') = match c with CCog a b => (a, b) | _ => (n_cog_thd s, n_cog_upd s) end.
Proof.
  intros E. destruct c as [id m|m|k r|b|f|a b]; cbn [NmeaState_model.step] in E; try (injection E as <- <-; split; reflexivity).
  - unfold sbp2nmea in E. cbv zeta in E. destruct (um_settings s (recode s id)) as (U1 & U2 & U3 & _). destruct (discard _ _ _).
    + injection E as <- <-. rewrite U1, U2, U3. split; reflexivity.
    + apply (check_send_kind code_of snd_ snd_frame) in E. destruct E as [SM _]. destruct (same_settings _ _ SM) as (A & B & D & _). rewrite A, B, D. unfold msg_set. cbn [n_base n_cog_thd n_cog_upd]. rewrite U1, U2, U3. split; reflexivity.
  - unfold sbp2nmea_obs in E. cbv zeta in E. destruct (if om_count m =? 0 then _ else _) as [[|]|]; [|destruct (255 <? _); [discriminate|]|discriminate].
    + injection E as <- <-. split; reflexivity.
    + apply (check_send_kind code_of snd_ snd_frame) in E. destruct E as [SM _]. destruct (same_settings _ _ SM) as (A & B & D & _). rewrite A, B, D. split; reflexivity.
Qed.
Lemma settings_run cs : forall s s' os, run code_of snd_ eps s cs = Some (s', os) -> n_base s' = last_base cs (n_base s) /\ (n_cog_thd s', n_cog_upd s') = last_cog cs (n_cog_thd s, n_cog_upd s).
Proof.
  induction cs as [|c cs IH]; intros s s' os E; cbn [NmeaState_model.run] in E.
  - injection E as <- <-. split; reflexivity.
  - destruct (step code_of snd_ eps s c) as [[s1 o1]|] eqn:E1; [|discriminate]. destruct (run code_of snd_ eps s1 cs) as [[s2 o2]|] eqn:E2; [|discriminate]. injection E as <- <-.
    destruct (settings_step _ _ _ _ E1) as [A B]. destruct (IH _ _ _ E2) as [C D]. rewrite A in C. rewrite B in D. split; [rewrite C|rewrite D]; destruct c; reflexivity.
Qed.

(** ** the remembered course stays in range *)
Definition cog_okb (s : nst) : bool := dfin (n_last_cog s) && (if Rle_dec 0 (dR (n_last_cog s)) then true else false) && (if Rlt_dec (dR (n_last_cog s)) (35995 / 100) then true else false).
Lemma cog_okb_spec s : cog_okb s = true <-> cog_range (n_last_cog s).
Proof. unfold cog_okb, cog_range. destruct (dfin _), (Rle_dec _ _), (Rlt_dec _ _); cbn [andb]; split; intros; try discriminate; try tauto; intuition congruence. Qed.
Definition wrapped (k : kind) (s : nst) : option (nst * list sent) := if cog_okb s then snd_ k s else None.
Lemma wrapped_frame k s s' txt : wrapped k s = Some (s', txt) -> exists c, s' = with_cog s c.
Proof. unfold wrapped. destruct (cog_okb s); [apply snd_frame|discriminate]. Qed.

Hypothesis kept : forall k s s' txt, n_act s <> mBEST -> cog_range (n_last_cog s) -> snd_ k s = Some (s', txt) -> cog_range (n_last_cog s').
Definition good (s : nst) : Prop := n_act s <> mBEST /\ cog_okb s = true.
Lemma loop_wrapped mt gt freq ks : forall s, good s -> send_loop wrapped mt gt freq ks s = send_loop snd_ mt gt freq ks s /\ forall s' os, send_loop snd_ mt gt freq ks s = Some (s', os) -> good s'.
Proof.
  induction ks as [|k ks IH]; intros s [GA GC]; cbn [send_loop].
  - split; [reflexivity|]. intros s' os E. apply Some_inj in E. apply (f_equal fst) in E. cbn [fst] in E. subst s'. split; assumption.
  - destruct (nmea_ready s k) as [[|]|]; [|apply IH; split; assumption|split; [reflexivity|discriminate]].
    destruct (check_nmea_rate _ _ _) as [[|]|]; [|apply IH; split; assumption|split; [reflexivity|discriminate]].
    unfold wrapped at 1. rewrite GC. destruct (snd_ k s) as [[s1 txt]|] eqn:ES; [|split; [reflexivity|discriminate]].
    assert (G1 : good (set_last s1 k (if in_fused k then mt else gt))).
    { destruct (snd_frame _ _ _ _ ES) as [c C]. split; [subst s1; exact GA|]. apply cog_okb_spec. cbn [set_last n_last_cog]. eapply kept; [exact GA|apply cog_okb_spec; exact GC|exact ES]. }
    destruct (IH _ G1) as [I1 I2]. rewrite I1. split; [reflexivity|]. intros s' os E. destruct (send_loop snd_ mt gt freq ks _) as [[s2 outs]|] eqn:E2; [|discriminate E].
    apply Some_inj in E. apply (f_equal fst) in E. cbn [fst] in E. subst s'. apply (I2 _ _ eq_refl).
Qed.
Lemma check_wrapped s : good s -> check_nmea_send wrapped s = check_nmea_send snd_ s /\ forall s' os, check_nmea_send snd_ s = Some (s', os) -> good s'.
Proof. intros G. unfold check_nmea_send. apply loop_wrapped. exact G. Qed.
Lemma step_wrapped s c : good s -> step code_of wrapped eps s c = step code_of snd_ eps s c /\ forall s' os, step code_of snd_ eps s c = Some (s', os) -> good s'.
Proof.
  intros G. assert (SI : forall t (o : list out) s' os, good t -> Some (t, o) = Some (s', os) -> good s') by (intros t o s' os GT E; apply Some_inj in E; apply (f_equal fst) in E; cbn [fst] in E; subst s'; exact GT).
  destruct c as [id m|m|k r|b|f|a b]; cbn [NmeaState_model.step].
  - unfold sbp2nmea. cbv zeta. destruct (um_settings s (recode s id)) as (_ & _ & _ & U4 & U5). destruct G as [G1 G2].
    assert (GU : good (check_wagon (update_mode s (recode s id)) (recode s id))) by (split; [apply U5; exact G1|unfold cog_okb; rewrite U4; exact G2]).
    destruct (discard _ _ _); [split; [reflexivity|intros s' os E; exact (SI _ _ _ _ GU E)]|]. apply check_wrapped. destruct GU as [A B]. split; [exact A|exact B].
  - unfold sbp2nmea_obs. cbv zeta. destruct (if om_count m =? 0 then _ else _) as [[|]|]; [|destruct (255 <? _); [split; [reflexivity|discriminate]|]|split; [reflexivity|discriminate]].
    + split; [reflexivity|intros s' os E; eapply SI; [|exact E]; destruct G as [A B]; split; [exact A|exact B]].
    + apply check_wrapped. destruct G as [A B]. split; [exact A|exact B].
  - split; [reflexivity|]. intros s' os E. eapply SI; [|exact E]. destruct G as [A B]. split; [exact A|exact B].
  - split; [reflexivity|]. intros s' os E. eapply SI; [|exact E]. destruct G as [A B]. split; [exact A|exact B].
  - split; [reflexivity|]. intros s' os E. eapply SI; [|exact E]. destruct G as [A B]. split; [exact A|exact B].
  - split; [reflexivity|]. intros s' os E. eapply SI; [|exact E]. destruct G as [A B]. split; [exact A|exact B].
Qed.
Lemma run_wrapped cs : forall s, good s -> run code_of wrapped eps s cs = run code_of snd_ eps s cs.
Proof.
  induction cs as [|c cs IH]; intros s G; cbn [run]; [reflexivity|]. destruct (step_wrapped s c G) as [A B]. rewrite A. destruct (step code_of snd_ eps s c) as [[s1 o1]|] eqn:E; [|reflexivity].
  rewrite (IH s1 (B _ _ eq_refl)). reflexivity.
Qed.
Lemma good_init req : good (init req).
Proof. split; [discriminate|]. apply cog_okb_spec. exact zero_range. Qed.
End P.

Section Content.
(** external functions: signal codes, "%.nf", geoid, square roots and arc tangents *)
Variable code_of : Z -> code.
Variable ff : Z -> Z -> dbl -> list Z.
Variable geoid : dbl -> dbl -> dbl.
Variable knots kmh course : Z -> Z -> dbl.
Variable gst_vals : Z -> list dbl.
Variable pubx_acc : Z -> dbl * dbl.
Variable heading_float mm_down : Z -> dbl.
Hypothesis ff_ok : forall w p x, Forall body_char (ff w p x) /\ commas (ff w p x) = 0.
Hypothesis gst_six : forall c, List.length (gst_vals c) = 6%nat.
(** atan2 in degrees *)
Hypothesis course_ok : forall n e, dfin (course n e) = true /\ (Rabs (dR (course n e)) <= 180)%R.
Notation builders := (send code_of ff geoid knots kmh course gst_vals pubx_acc heading_float mm_down).
Notation content := (content code_of ff geoid knots kmh course gst_vals pubx_acc heading_float mm_down).

Lemma last_msg_ok req id cs : (forall i m, In (CMsg i m) cs -> msg_ok m) -> msg_ok (last_msg (is_glo code_of) req id cs zeroed).
Proof. intros H. destruct (last_msg_in (is_glo code_of) req id cs zeroed) as [->|[j J]]; [exact I|]. exact (H j _ J). Qed.

(** ** C56 *)
(** In every history of calls with messages in range, the fields of every sentence delivered (GSA and GSV: C47) are the ones of its kind, filled from the last
    messages received, the base station and the course thresholds last set, and the satellites of the observations; unless its text fills the whole buffer. *)
Theorem C56_content : forall eps req cs s' os o max parts buf, Forall wf_call cs -> (forall id m, In (CMsg id m) cs -> msg_ok m) ->
  run code_of builders eps (init req) cs = Some (s', os) -> In o os -> In (max, parts) (o_sents o) -> len buf = max + 6 ->
  exists cs1 cs2 t body txt, cs = cs1 ++ cs2 /\
    (forall id, n_slot t id = last_msg (is_glo code_of) req id cs1 zeroed) /\ n_act t = mode_after req cs1 /\ n_base t = last_base cs1 0 /\ (n_cog_thd t, n_cog_upd t) = last_cog cs1 (f01, f01) /\
    sentence max buf parts = Ok txt /\ nmea_sentence body txt /\ (content (o_kind o) t (fields body) \/ len txt = max + 4).
Proof.
  intros eps req cs s' os o max parts buf WC MK E I J L.
  pose proof (send_frame code_of ff geoid knots kmh course gst_vals pubx_acc heading_float mm_down) as FR.
  assert (KP : forall k s s1 txt, n_act s <> mBEST -> cog_range (n_last_cog s) -> builders k s = Some (s1, txt) -> cog_range (n_last_cog s1)).
  { intros k s s1 txt NB CR SE. eapply cog_kept; try eassumption. }
  rewrite <- (run_wrapped code_of eps builders FR KP cs (init req) (good_init req)) in E.
  destruct (emission code_of (wrapped builders) eps (wrapped_frame builders FR) _ _ _ _ _ E I)
    as (cs1 & cs2 & t & -> & WT & SL & AC & RQ & _ & SN & _ & s0 & _ & _ & s1 & o1 & R1 & SM). apply Forall_app in WC. specialize (WT (proj1 WC)).
  unfold wrapped in SN. destruct (cog_okb t) eqn:CK; [|discriminate SN]. apply cog_okb_spec in CK.
  destruct (builders (o_kind o) t) as [[s2 l]|] eqn:SE; [|discriminate SN]. cbn [option_map snd] in SN. apply Some_inj in SN. subst l.
  assert (NB : n_act t <> mBEST) by (rewrite AC; unfold mode_after; destruct (_ && _); discriminate).
  assert (MO : forall id, msg_ok (n_slot t id)) by (intros id; rewrite SL; apply last_msg_ok; intros i m IM; apply (MK i); apply in_or_app; left; exact IM).
  destruct (settings_run code_of eps _ (wrapped_frame builders FR) _ _ _ _ R1) as [B1 B2]. destruct (same_settings _ _ SM) as (A1 & A2 & A3 & _). rewrite <- A1 in B1. rewrite <- A2, <- A3 in B2.
  exists cs1, cs2, t.
  pose proof (send_good code_of ff geoid knots kmh course gst_vals pubx_acc heading_float mm_down ff_ok gst_six t WT _ _ _ SE) as G.
  rewrite Forall_forall in G. destruct (G _ J) as (M & body & BD1 & BD2 & _). cbn [fst snd] in *.
  destruct (delivered max buf parts body M L BD1 BD2) as (txt & T1 & T2). exists (take (max - 2) body), txt.
  split; [reflexivity|]. split; [exact SL|]. split; [exact AC|]. split; [exact B1|]. split; [exact B2|]. split; [exact T1|]. split; [exact T2|].
  destruct (Z.le_gt_cases (len body) (max - 2)) as [LE|GT].
  - left. rewrite take_all by assumption.
    destruct (all_content code_of ff geoid knots kmh course gst_vals pubx_acc heading_float mm_down ff_ok gst_six course_ok t WT NB MO CK _ _ _ SE) as [->|[->|F]]; [exact Logic.I|exact Logic.I|].
    rewrite Forall_forall in F. destruct (F _ J) as (fs & F1 & F2 & F3 & F4). cbn [snd] in F3. rewrite BD1 in F3. apply (f_equal (@tl Z)) in F3. cbn [tl] in F3. rewrite F3, fields_join by assumption. exact F4.
  - right. destruct T2 as (_ & h1 & h2 & -> & _). rewrite !len_app, len_take, !len_cons, !(@len_nil Z). lia.
Qed.
End Content.

(** ** hypotheses met *)
(** the history of C44_met is within the ranges, its external functions too, and the fields of its GGA sentence are the following *)
Example C56_met : (forall id m, In (CMsg id m) ex_history -> msg_ok m) /\ (forall n e, dfin (ex_num n e) = true /\ (Rabs (dR (ex_num n e)) <= 180)%R) /\
  fields (str "GPGGA,000000.00,371.5,N,1221.5,W,4,09,1.5,1.5,M,1.5,M,1.5,0000"%string) =
    List.map str ["GPGGA"; "000000.00"; "371.5"; "N"; "1221.5"; "W"; "4"; "09"; "1.5"; "1.5"; "M"; "1.5"; "M"; "1.5"; "0000"]%string.
Proof.
  split; [|split].
  - assert (ANG : forall z, (-360 <= z <= 360)%Z -> ok_angle (dofZ z)).
    { intros z B. destruct (dofZ_exact z ltac:(lia)) as [F V]. split; [exact F|]. rewrite V, <- abs_IZR. apply IZR_le. lia. }
    intros id m I. unfold ex_history, setup, sky, gnss_epoch, all_kinds, ex_obs, ex_pos in I. cbn [app List.map In] in I. unfold msg_ok, u16.
    repeat (destruct I as [I|I]; [first [discriminate I|apply (f_equal (fun c => match c with CMsg _ x => x | _ => m end)) in I; subst m; cbn [s_body];
       first [exact Logic.I | split; apply ANG; lia | right; unfold valid_utc, ex_utc; cbn; lia | cbn; lia]]|]). destruct I.
  - intros n e. unfold ex_num. destruct (dofZ_exact 3 ltac:(lia)) as [F V]. split; [exact F|]. rewrite V. rewrite Rabs_right; lra.
  - vm_compute. reflexivity.
Qed.
(** ** limits *)
(** a position whose fix type is the reserved value 7 aborts the program (an assertion), whatever else is received; so does a latitude of 65536 degrees *)
Theorem C56_reserved_fix_aborts_refuted : ex_run mGNSS (setup ++ sky ++ gnss_epoch 100000) <> None /\
  ex_run mGNSS (setup ++ sky ++ List.map (fun c => match c with CMsg sPOS_G (mkslot t (BPos p)) => CMsg sPOS_G (mkslot t (BPos (mkposm (p_lat p) (p_lon p) (p_height p) (p_cov p) (p_nsats p) 7))) | _ => c end) (gnss_epoch 100000)) = None /\
  ex_run mGNSS (setup ++ sky ++ List.map (fun c => match c with CMsg sPOS_G (mkslot t (BPos p)) => CMsg sPOS_G (mkslot t (BPos (mkposm (dofZ 65536) (p_lon p) (p_height p) (p_cov p) (p_nsats p) 4))) | _ => c end) (gnss_epoch 100000)) = None.
Proof.
  split; [|split; vm_compute; reflexivity]. intros H. assert (T : match ex_run mGNSS (setup ++ sky ++ gnss_epoch 100000) with Some _ => True | None => False end) by (vm_compute; exact Logic.I). rewrite H in T. exact T.
Qed.

Print Assumptions C56_content.
Print Assumptions C56_reserved_fix_aborts_refuted.
