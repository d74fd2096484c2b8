(** Lemmas about the SBP to NMEA state machine. *)
From Coq Require Import Reals Lra Sorted.
From Flocq Require Import Core IEEE754.Binary IEEE754.Bits.
From Verif Require Import Base Double_model Double_proofs Esf_proofs Signals_model RtcmMsm_model RtcmLegacy_model Sbp2Msm_model Sbp2Rtcm_model Sbp2Rtcm_proofs
  NmeaText_model NmeaTime_model Nmea_model NmeaState_model NmeaState_spec ObsBuffer_spec ObsBuffer_proofs.
Open Scope Z_scope.

Lemma mode_eqb_spec a b : mode_eqb a b = true <-> a = b.
Proof. destruct a, b; cbn; split; congruence. Qed.
Lemma with_cog_id s : with_cog s (n_last_cog s) = s. Proof. destruct s; reflexivity. Qed.

Section P.
Variable code_of : Z -> code.
Variable snd_ : kind -> nst -> option (nst * list sent).
Variable eps : dbl.
(** the builders only touch the remembered course *)
Hypothesis snd_frame : forall k s s' txt, snd_ k s = Some (s', txt) -> exists c, s' = with_cog s c.

(** what the loop over the kinds may change *)
Definition same_but (s t : nst) : Prop :=
  n_sids s = n_sids t /\ n_seq_count s = n_seq_count t /\ n_seq_total s = n_seq_total t /\ n_obs_wn s = n_obs_wn t /\ n_obs_tow s = n_obs_tow t /\
  n_req s = n_req t /\ n_act s = n_act t /\ n_wagon s = n_wagon t /\ n_base s = n_base t /\ n_rate s = n_rate t /\ n_slot s = n_slot t /\ n_freq s = n_freq t /\
  n_cog_thd s = n_cog_thd t /\ n_cog_upd s = n_cog_upd t.
Lemma same_refl s : same_but s s. Proof. repeat split. Qed.
Lemma same_trans s t u : same_but s t -> same_but t u -> same_but s u.
Proof. unfold same_but. intros A B. decompose [and] A. decompose [and] B. repeat split; congruence. Qed.
Lemma same_set s k t c : same_but s (set_last (with_cog s c) k t). Proof. repeat split. Qed.

Lemma ready_same s t k : same_but s t -> n_last s k = n_last t k -> nmea_ready s k = nmea_ready t k.
Proof.
  unfold same_but. intros A L. destruct A as (_ & A2 & A3 & A4 & A5 & A6 & A7 & A8 & _ & _ & A11 & _).
  unfold nmea_ready, get_tow, msg_get. rewrite L, A2, A3, A4, A5, A6, A7, A8, A11. reflexivity.
Qed.

(** the loop, seen by one kind *)
Definition due (s : nst) (k : kind) (tow : Z) (freq : binary32) : bool :=
  match nmea_ready s k with
  | Some true => match check_nmea_rate (n_rate s k mod 2 ^ 32) tow freq with Some true => true | _ => false end
  | _ => false
  end.
Lemma of_kind_cons k o os : of_kind k (o :: os) = if kind_eq_dec (o_kind o) k then o :: of_kind k os else of_kind k os.
Proof. unfold of_kind. cbn [filter]. destruct (kind_eq_dec (o_kind o) k); reflexivity. Qed.
Lemma of_kind_app k a b : of_kind k (a ++ b) = of_kind k a ++ of_kind k b.
Proof. apply filter_app. Qed.
Definition tow_of (mt gt : Z) (k : kind) : Z := if in_fused k then mt else gt.
Lemma loop_other mt gt freq ks : forall s s' os, send_loop snd_ mt gt freq ks s = Some (s', os) -> same_but s s' /\
  (forall k, ~ In k ks -> of_kind k os = [] /\ n_last s' k = n_last s k) /\ (forall o, In o os -> o_tow o = tow_of mt gt (o_kind o)).
Proof.
  induction ks as [|a ks IH]; intros s s' os E; cbn [send_loop] in E.
  - injection E as <- <-. split; [apply same_refl|]. split; [auto|]. intros o [].
  - destruct (nmea_ready s a) as [[|]|]; [|apply IH in E; destruct E as (A & B & C); split; [exact A|]; split; [|exact C]; intros k N; apply B; cbn in N; tauto|discriminate].
    destruct (check_nmea_rate _ _ _) as [[|]|]; [|apply IH in E; destruct E as (A & B & C); split; [exact A|]; split; [|exact C]; intros k N; apply B; cbn in N; tauto|discriminate].
    destruct (snd_ a s) as [[s1 txt]|] eqn:ES; [|discriminate]. destruct (snd_frame _ _ _ _ ES) as [c ->].
    destruct (send_loop _ _ _ _ _ _) as [[s2 os2]|] eqn:EL; [|discriminate]. injection E as <- <-.
    apply IH in EL. destruct EL as (A & B & C). split; [eapply same_trans; [apply same_set|exact A]|]. split.
    + intros k N. cbn [In] in N. destruct (B k ltac:(tauto)) as [B1 B2]. rewrite of_kind_cons. cbn [o_kind].
      destruct (kind_eq_dec a k); [subst; tauto|]. split; [exact B1|]. rewrite B2. unfold set_last. cbn [n_last]. destruct (kind_eq_dec k a); [subst; tauto|reflexivity].
    + intros o [<-|H]; [reflexivity|apply C; exact H].
Qed.
Lemma loop_kind mt gt freq ks : NoDup ks -> forall s s' os k, In k ks -> send_loop snd_ mt gt freq ks s = Some (s', os) ->
  if due s k (tow_of mt gt k) freq then (exists txt t1, of_kind k os = [mkout k (tow_of mt gt k) txt] /\ same_but s t1 /\ option_map snd (snd_ k t1) = Some txt) /\
     n_last s' k = tow_of mt gt k
  else of_kind k os = [] /\ n_last s' k = n_last s k.
Proof.
  induction ks as [|a ks IH]; intros ND s s' os k I E; [destruct I|]. inversion ND as [|? ? NI ND']; subst. cbn [send_loop] in E.
  destruct (kind_eq_dec a k) as [->|NE].
  - unfold due. fold (tow_of mt gt k) in E. destruct (nmea_ready s k) as [[|]|].
    + destruct (check_nmea_rate _ _ _) as [[|]|].
      * destruct (snd_ k s) as [[s1 txt]|] eqn:ES; [|discriminate]. destruct (snd_frame _ _ _ _ ES) as [c ->].
        destruct (send_loop _ _ _ _ _ _) as [[s2 os2]|] eqn:EL; [|discriminate]. injection E as <- <-.
        apply loop_other in EL. destruct EL as (A & B & C). destruct (B k NI) as [B1 B2]. split.
        -- exists txt, s. rewrite of_kind_cons. cbn [o_kind]. destruct (kind_eq_dec k k); [|contradiction]. rewrite B1, ES. split; [reflexivity|]. split; [apply same_refl|reflexivity].
        -- rewrite B2. unfold set_last. cbn [n_last]. destruct (kind_eq_dec k k); [reflexivity|contradiction].
      * apply loop_other in E. destruct E as (A & B & C). apply B. exact NI.
      * discriminate.
    + apply loop_other in E. destruct E as (A & B & C). apply B. exact NI.
    + discriminate.
  - destruct I as [->|I]; [contradiction|].
    destruct (nmea_ready s a) as [[|]|]; [|apply IH; assumption|discriminate].
    destruct (check_nmea_rate _ _ _) as [[|]|]; [|apply IH; assumption|discriminate].
    destruct (snd_ a s) as [[s1 txt]|] eqn:ES; [|discriminate]. destruct (snd_frame _ _ _ _ ES) as [c ->].
    destruct (send_loop _ _ _ _ _ _) as [[s2 os2]|] eqn:EL; [|discriminate]. injection E as <- <-.
    pose proof (IH ND' _ _ _ k I EL) as H.
    assert (SM : same_but s (set_last (with_cog s c) a (if in_fused a then mt else gt))) by apply same_set.
    assert (LK : n_last (set_last (with_cog s c) a (if in_fused a then mt else gt)) k = n_last s k).
    { unfold set_last. cbn [n_last]. destruct (kind_eq_dec k a); [subst; contradiction|reflexivity]. }
    set (s1 := set_last _ _ _) in *. clearbody s1.
    assert (DU : due s1 k (tow_of mt gt k) freq = due s k (tow_of mt gt k) freq).
    { unfold due. rewrite (ready_same s s1 k SM) by (symmetry; exact LK). destruct SM as (_ & _ & _ & _ & _ & _ & _ & _ & _ & R & _). rewrite R. reflexivity. }
    rewrite DU in H. rewrite of_kind_cons. cbn [o_kind]. destruct (kind_eq_dec a k); [contradiction|]. destruct (due s k (tow_of mt gt k) freq).
    + destruct H as [(t & t1 & H1 & H2 & H3) H4]. split; [|exact H4]. exists t, t1. split; [exact H1|]. split; [eapply same_trans; eassumption|exact H3].
    + rewrite <- LK. exact H.
Qed.
Lemma all_kinds_nodup : NoDup all_kinds.
Proof. unfold all_kinds. repeat (constructor; [cbn [In]; intuition discriminate|]). constructor. Qed.
Lemma all_kinds_all k : In k all_kinds. Proof. destruct k; cbn; tauto. Qed.

(** the time of week a kind is compared with *)
Definition ref_tow (s : nst) (k : kind) : Z := tow_of (get_tow s sUTC_TIME true) (get_tow s sUTC_TIME_G false) k.
Lemma ref_same s t k : same_but s t -> ref_tow s k = ref_tow t k.
Proof.
  intros A. destruct A as (_ & _ & _ & _ & _ & _ & A7 & _ & _ & _ & A11 & _). unfold ref_tow, get_tow, msg_get. rewrite A7, A11. reflexivity.
Qed.
Lemma check_send_kind s s' os : check_nmea_send snd_ s = Some (s', os) -> same_but s s' /\ forall k,
  if due s k (ref_tow s k) (n_freq s) then (exists txt t1, of_kind k os = [mkout k (ref_tow s k) txt] /\ same_but s t1 /\ option_map snd (snd_ k t1) = Some txt) /\
     n_last s' k = ref_tow s k
  else of_kind k os = [] /\ n_last s' k = n_last s k.
Proof.
  unfold check_nmea_send. intros E. split; [apply (loop_other _ _ _ _ _ _ _ E)|]. intros k.
  apply (loop_kind _ _ _ _ all_kinds_nodup _ _ _ k (all_kinds_all k) E).
Qed.

(** ** one call *)
(** the state in which the readiness is examined *)
Definition examined (s : nst) (c : call) : option nst :=
  match c with
  | CMsg id m => let id := recode s id in let s := check_wagon (update_mode s id) id in if discard code_of id m then None else Some (msg_set s id m)
  | _ => None
  end.
Lemma due_not_last s k : n_act s <> mBEST -> due s k (ref_tow s k) (n_freq s) = true -> ref_tow s k <> n_last s k.
Proof.
  intros NB. unfold due, nmea_ready, ref_tow, tow_of.
  assert (FU : n_act s = mFUSED -> get_tow s sUTC_TIME true = get_tow s sUTC_TIME false).
  { intros E. unfold get_tow, msg_get. rewrite E. cbn [mode_eqb translate id_map]. reflexivity. }
  assert (GN : n_act s = mGNSS -> get_tow s sUTC_TIME true = get_tow s sUTC_TIME_G false).
  { intros E. unfold get_tow, msg_get. rewrite E. cbn [mode_eqb translate id_map]. reflexivity. }
  destruct (mode_eqb (n_req s) mFUSED && negb (in_fused k)); [discriminate|].
  destruct (mode_eqb (n_act s) mFUSED) eqn:EA.
  - apply mode_eqb_spec in EA. rewrite (FU EA). destruct (in_fused k) eqn:IF; cbn [andb].
    + destruct (n_wagon s); cbn [negb]; [|discriminate]. destruct (Z.eqb_spec (n_last s k) (get_tow s sUTC_TIME false)); cbn [negb]; [discriminate|]. lia.
    + destruct (Z.eqb_spec (n_last s k) (get_tow s sUTC_TIME_G false)); [discriminate|]. lia.
  - cbn [andb]. assert (EG : n_act s = mGNSS) by (destruct (n_act s); [contradiction NB; reflexivity|reflexivity|discriminate]). rewrite (GN EG).
    destruct (Z.eqb_spec (n_last s k) (get_tow s sUTC_TIME_G false)); [discriminate|]. destruct (in_fused k); lia.
Qed.
Definition is_check (s : nst) (c : call) (s0 : nst) : Prop := exists s1 os, step code_of snd_ eps s c = Some (s1, os) /\ check_nmea_send snd_ s0 = Some (s1, os).
(** a call examines the readiness in some state s0 with the same last-sent times, or emits nothing *)
Lemma step_cases s c s' os : step code_of snd_ eps s c = Some (s', os) ->
  (exists s0, check_nmea_send snd_ s0 = Some (s', os) /\ n_last s0 = n_last s /\ n_rate s0 = n_rate s /\ n_req s0 = n_req s /\ n_freq s0 = n_freq s) \/
  (os = [] /\ n_last s' = n_last s /\ n_req s' = n_req s).
Proof.
  assert (WM : forall t a w, n_last (with_mode t a w) = n_last t /\ n_rate (with_mode t a w) = n_rate t /\ n_req (with_mode t a w) = n_req t /\ n_freq (with_mode t a w) = n_freq t) by (intros; repeat split).
  assert (UM : forall t id, n_last (check_wagon (update_mode t id) id) = n_last t /\ n_rate (check_wagon (update_mode t id) id) = n_rate t /\
    n_req (check_wagon (update_mode t id) id) = n_req t /\ n_freq (check_wagon (update_mode t id) id) = n_freq t).
  { intros t id. unfold check_wagon, update_mode. destruct (mode_eqb (n_req t) mBEST && mode_eqb (n_act t) mGNSS && _); destruct (negb _); try destruct id; repeat split. }
  destruct c as [id m|m|k r|b|f|a b]; cbn [step]; intros E.
  - unfold sbp2nmea in E. cbv zeta in E. destruct (discard _ _ _).
    + injection E as <- <-. right. destruct (UM s (recode s id)) as (U1 & U2 & U3 & U4). auto.
    + left. eexists. split; [exact E|]. unfold msg_set. cbn [n_last n_rate n_req n_freq]. apply UM.
  - unfold sbp2nmea_obs in E. cbv zeta in E.
    destruct (if om_count m =? 0 then _ else _) as [[|]|]; [|destruct (255 <? _); [discriminate|]|discriminate].
    + injection E as <- <-. right. auto.
    + left. eexists. split; [exact E|]. repeat split.
  - injection E as <- <-. right; auto.
  - injection E as <- <-. right; auto.
  - injection E as <- <-. right; auto.
  - injection E as <- <-. right; auto.
Qed.
Lemma step_kind s c s' os k : n_act s' <> mBEST -> step code_of snd_ eps s c = Some (s', os) ->
  (of_kind k os = [] /\ n_last s' k = n_last s k) \/
  (exists o, of_kind k os = [o] /\ o_tow o = ref_tow s' k /\ n_last s' k = o_tow o /\ o_tow o <> n_last s k).
Proof.
  intros NB E. destruct (step_cases s c s' os E) as [(s0 & C & L & _)|(-> & L & _)].
  - destruct (check_send_kind _ _ _ C) as [SM H]. specialize (H k). rewrite <- L.
    destruct (due s0 k (ref_tow s0 k) (n_freq s0)) eqn:D.
    + right. destruct H as [(txt & t1 & H1 & _) H2]. eexists. split; [exact H1|]. cbn [o_tow]. rewrite <- (ref_same s0 s' k SM).
      split; [reflexivity|]. split; [exact H2|]. apply due_not_last; [|exact D]. destruct SM as (_ & _ & _ & _ & _ & _ & A7 & _). rewrite A7. exact NB.
    + left. exact H.
  - left. split; [reflexivity|]. rewrite L. reflexivity.
Qed.

(** ** the mode *)
Lemma act_step s c s' os : step code_of snd_ eps s c = Some (s', os) ->
  n_req s' = n_req s /\ n_act s' = if mode_eqb (n_req s) mBEST && mode_eqb (n_act s) mGNSS && is_group c then mFUSED else n_act s.
Proof.
  intros E. assert (RQ : n_req s' = n_req s).
  { destruct (step_cases s c s' os E) as [(s0 & C & _ & _ & R & _)|(_ & _ & R)]; [|exact R].
    destruct (check_send_kind _ _ _ C) as [(_ & _ & _ & _ & _ & A6 & _) _]. congruence. }
  split; [exact RQ|]. destruct c as [id m|m|k r|b|f|a b]; cbn [step is_group] in *; try (injection E as <- <-; rewrite andb_false_r; reflexivity).
  - unfold sbp2nmea in E. cbv zeta in E.
    assert (A : n_act (check_wagon (update_mode s (recode s id)) (recode s id)) =
      if mode_eqb (n_req s) mBEST && mode_eqb (n_act s) mGNSS && match id with sGROUP => true | _ => false end then mFUSED else n_act s).
    { clear. destruct s as [a1 a2 a3 a4 a5 rq ac a8 a9 a10 a11 a12 a13 a14 a15 a16]. destruct rq, ac, id; reflexivity. }
    replace (match id with sGROUP => true | _ => false end) with (is_group (CMsg id m)) in A by reflexivity.
    destruct (discard _ _ _).
    + injection E as <- <-. exact A.
    + destruct (check_send_kind _ _ _ E) as [(_ & _ & _ & _ & _ & _ & A7 & _) _]. rewrite <- A7. unfold msg_set. cbn [n_act]. exact A.
  - rewrite andb_false_r. unfold sbp2nmea_obs in E. cbv zeta in E.
    destruct (if om_count m =? 0 then _ else _) as [[|]|]; [|destruct (255 <? _); [discriminate|]|discriminate].
    + injection E as <- <-. reflexivity.
    + destruct (check_send_kind _ _ _ E) as [(_ & _ & _ & _ & _ & _ & A7 & _) _]. rewrite <- A7. reflexivity.
Qed.
Lemma act_run cs : forall s s' os, run code_of snd_ eps s cs = Some (s', os) -> n_act s <> mBEST ->
  n_req s' = n_req s /\ n_act s' = if mode_eqb (n_req s) mBEST && mode_eqb (n_act s) mGNSS && existsb is_group cs then mFUSED else n_act s.
Proof.
  induction cs as [|c cs IH]; intros s s' os E NB; cbn [run] in E.
  - injection E as <- <-. cbn [existsb]. rewrite andb_false_r. auto.
  - destruct (step _ _ _ s c) as [[s1 o1]|] eqn:E1; [|discriminate]. destruct (run _ _ _ s1 cs) as [[s2 o2]|] eqn:E2; [|discriminate]. injection E as <- <-.
    destruct (act_step _ _ _ _ E1) as [R1 A1]. assert (NB1 : n_act s1 <> mBEST) by (rewrite A1; destruct (_ && _); [discriminate|exact NB]).
    destruct (IH _ _ _ E2 NB1) as [R2 A2]. split; [congruence|]. rewrite A2, R1, A1. cbn [existsb].
    destruct (n_req s), (n_act s), (is_group c), (existsb is_group cs); reflexivity.
Qed.

(** ** what is in the message store *)
Lemma same_slot s t : same_but s t -> n_slot s = n_slot t /\ n_act s = n_act t /\ n_sids s = n_sids t.
Proof. intros (A1 & _ & _ & _ & _ & _ & A7 & _ & _ & _ & A11 & _). auto. Qed.
Lemma slot_step s c s' os : step code_of snd_ eps s c = Some (s', os) ->
  match c with
  | CMsg id m => if discard code_of (recode s id) m then n_slot s' = n_slot s else n_slot s' = fun j => if sid_eq_dec j (recode s id) then m else n_slot s j
  | _ => n_slot s' = n_slot s
  end.
Proof.
  assert (UM : forall t id, n_slot (check_wagon (update_mode t id) id) = n_slot t).
  { intros t id. unfold check_wagon, update_mode. destruct (mode_eqb (n_req t) mBEST && mode_eqb (n_act t) mGNSS && _); destruct (negb _); try destruct id; reflexivity. }
  destruct c as [id m|m|k r|b|f|a b]; cbn [step]; intros E; try (injection E as <- <-; reflexivity).
  - unfold sbp2nmea in E. cbv zeta in E. destruct (discard _ _ _).
    + injection E as <- <-. apply UM.
    + apply check_send_kind in E. destruct E as [SM _]. apply same_slot in SM. destruct SM as [SM _]. rewrite <- SM. unfold msg_set. cbn [n_slot]. rewrite UM. reflexivity.
  - unfold sbp2nmea_obs in E. cbv zeta in E.
    destruct (if om_count m =? 0 then _ else _) as [[|]|]; [|destruct (255 <? _); [discriminate|]|discriminate].
    + injection E as <- <-. reflexivity.
    + apply check_send_kind in E. destruct E as [SM _]. apply same_slot in SM. destruct SM as [SM _]. rewrite <- SM. reflexivity.
Qed.
Definition utc_tow (s : nst) : Z := s_tow (n_slot s sUTC_TIME_G).
Lemma utc_step s c s' os : step code_of snd_ eps s c = Some (s', os) ->
  match utc_tows (n_req s) [c] with [] => utc_tow s' = utc_tow s | t :: _ => utc_tow s' = t end.
Proof.
  intros E. apply slot_step in E. unfold utc_tow. destruct c as [id m|m|k r|b|f|a b]; cbn [utc_tows]; try (rewrite E; reflexivity).
  assert (D : discard code_of (recode s id) m = true -> recode s id = sMEAS) by (unfold discard; destruct (recode s id); congruence).
  destruct (discard code_of (recode s id) m).
  - specialize (D eq_refl). unfold recode in D. rewrite E. destruct (n_req s), id; try discriminate; reflexivity.
  - clear D. rewrite E. unfold recode. destruct (n_req s), id; reflexivity.
Qed.
Lemma utc_tows_cons r c cs : utc_tows r (c :: cs) = utc_tows r [c] ++ utc_tows r cs.
Proof. destruct c as [id m|m|k x|b|f|a b]; try reflexivity. destruct id; try reflexivity. destruct r; reflexivity. Qed.
Lemma utc_tows_one r c : utc_tows r [c] = [] \/ exists t, utc_tows r [c] = [t].
Proof. destruct c as [id m|m|k x|b|f|a b]; auto. destruct id; cbn; eauto. destruct r; eauto. Qed.

(** ** at most once per epoch *)
Lemma ref_gnss s k : n_act s = mGNSS -> ref_tow s k = utc_tow s.
Proof. intros E. unfold ref_tow, tow_of, get_tow, msg_get, utc_tow. rewrite E. cbn [mode_eqb translate id_map]. destruct (in_fused k); reflexivity. Qed.
Lemma run_increasing cs k : forall s s' os, n_req s <> mBEST -> n_act s = mGNSS -> run code_of snd_ eps s cs = Some (s', os) ->
  nondecreasing (utc_tow s) (utc_tows (n_req s) cs) -> n_last s k <= utc_tow s ->
  StronglySorted Z.lt (map o_tow (of_kind k os)) /\ Forall (Z.lt (n_last s k)) (map o_tow (of_kind k os)).
Proof.
  induction cs as [|c cs IH]; intros s s' os NB A E ND L; cbn [run] in E.
  - injection E as <- <-. split; constructor.
  - destruct (step _ _ _ s c) as [[s1 o1]|] eqn:E1; [|discriminate]. destruct (run _ _ _ s1 cs) as [[s2 o2]|] eqn:E2; [|discriminate]. injection E as <- <-.
    destruct (act_step _ _ _ _ E1) as [R1 A1].
    assert (AG : n_act s1 = mGNSS) by (rewrite A1, A; destruct (n_req s); try contradiction; reflexivity).
    pose proof (utc_step _ _ _ _ E1) as U. rewrite utc_tows_cons in ND.
    assert (ND1 : nondecreasing (utc_tow s1) (utc_tows (n_req s1) cs) /\ utc_tow s <= utc_tow s1).
    { rewrite R1. destruct (utc_tows_one (n_req s) c) as [X|[t X]]; rewrite X in U, ND; cbn [app nondecreasing] in ND; rewrite U; [split; [exact ND|lia]|split; tauto]. }
    destruct ND1 as [ND1 LE]. rewrite of_kind_app, map_app.
    destruct (step_kind s c s1 o1 k ltac:(congruence) E1) as [[K1 K2]|(o & K1 & K2 & K3 & K4)]; rewrite K1; cbn [map app].
    + destruct (IH s1 s2 o2 ltac:(congruence) AG E2 ND1 ltac:(lia)) as [S F]. rewrite <- K2. split; assumption.
    + rewrite (ref_gnss s1 k AG) in K2. destruct (IH s1 s2 o2 ltac:(congruence) AG E2 ND1 ltac:(lia)) as [S F].
      assert (LT : n_last s k < o_tow o) by lia. split.
      * constructor; [exact S|]. rewrite <- K3. exact F.
      * constructor; [exact LT|]. rewrite K3 in F. eapply Forall_impl; [|exact F]. intros. cbn beta in *. lia.
Qed.
Lemma run_consecutive cs k : forall s s' os, n_act s <> mBEST -> run code_of snd_ eps s cs = Some (s', os) ->
  Sorted (fun a b => a <> b) (map o_tow (of_kind k os)) /\ HdRel (fun a b => a <> b) (n_last s k) (map o_tow (of_kind k os)).
Proof.
  induction cs as [|c cs IH]; intros s s' os NB E; cbn [run] in E.
  - injection E as <- <-. split; constructor.
  - destruct (step _ _ _ s c) as [[s1 o1]|] eqn:E1; [|discriminate]. destruct (run _ _ _ s1 cs) as [[s2 o2]|] eqn:E2; [|discriminate]. injection E as <- <-.
    destruct (act_step _ _ _ _ E1) as [R1 A1]. assert (NB1 : n_act s1 <> mBEST) by (rewrite A1; destruct (_ && _); [discriminate|exact NB]).
    destruct (IH _ _ _ NB1 E2) as [S H]. rewrite of_kind_app, map_app.
    destruct (step_kind s c s1 o1 k NB1 E1) as [[K1 K2]|(o & K1 & K2 & K3 & K4)]; rewrite K1; cbn [map app].
    + rewrite <- K2. split; assumption.
    + split; [|constructor; lia]. constructor; [exact S|]. rewrite <- K3. exact H.
Qed.

(** ** one epoch *)
Lemma of_kind_in k o os : In o os -> o_kind o = k -> In o (of_kind k os).
Proof. intros I <-. unfold of_kind. apply filter_In. split; [exact I|]. destruct (kind_eq_dec (o_kind o) (o_kind o)); [reflexivity|contradiction]. Qed.
(** an emission: the state it was made in, and why *)
Lemma step_emission s c s' os o : step code_of snd_ eps s c = Some (s', os) -> In o os ->
  exists s0, same_but s0 s' /\ n_last s0 = n_last s /\ due s0 (o_kind o) (ref_tow s' (o_kind o)) (n_freq s) = true /\ n_rate s0 = n_rate s /\ o_tow o = ref_tow s' (o_kind o) /\
    exists t, same_but s0 t /\ option_map snd (snd_ (o_kind o) t) = Some (o_sents o).
Proof.
  intros E I. destruct (step_cases _ _ _ _ E) as [(s0 & C & L & R & Q & FR)|(-> & _)]; [|destruct I].
  exists s0. destruct (check_send_kind _ _ _ C) as [SM H]. specialize (H (o_kind o)). apply (of_kind_in (o_kind o)) in I; [|reflexivity].
  destruct (due s0 (o_kind o) (ref_tow s0 (o_kind o)) (n_freq s0)) eqn:D.
  - destruct H as [(txt & t1 & H1 & H2 & H3) H4]. rewrite H1 in I. destruct I as [<-|[]]. cbn [o_kind o_tow o_sents] in *.
    rewrite <- (ref_same _ _ _ SM), <- FR. split; [exact SM|]. split; [exact L|]. split; [exact D|]. split; [exact R|]. split; [reflexivity|]. exists t1. auto.
  - destruct H as [H _]. rewrite H in I. destruct I.
Qed.
Lemma due_rate s k t f : due s k t f = true -> check_nmea_rate (n_rate s k mod 2 ^ 32) t f = Some true.
Proof. unfold due. destruct (nmea_ready s k) as [[|]|]; try discriminate. destruct (check_nmea_rate _ _ _) as [[|]|]; congruence. Qed.
Lemma due_ready s k t f : due s k t f = true -> nmea_ready s k = Some true.
Proof. unfold due. destruct (nmea_ready s k) as [[|]|]; try discriminate. reflexivity. Qed.
Lemma ready_tows s k : nmea_ready s k = Some true -> n_act s = mGNSS \/ in_fused k = false -> forall id, In id (tow_mask k) -> get_tow s id false = utc_tow s.
Proof.
  unfold nmea_ready. intros R M. destruct (_ && _); [discriminate|].
  assert (F : mode_eqb (n_act s) mFUSED && in_fused k = false) by (destruct M as [-> | ->]; [reflexivity|apply andb_false_r]). rewrite F in R.
  destruct (_ =? _); [discriminate|]. cbv zeta in R.
  assert (T : forallb (fun id => get_tow s id false =? get_tow s sUTC_TIME_G false) (tow_mask k) = true).
  { destruct (kind_eq_dec k GSA); [|congruence]. destruct (negb _); [discriminate|]. destruct (gpsdiff _ _ _ _); [|discriminate]. destruct (dgtb _ _); congruence. }
  rewrite forallb_forall in T. intros id I. specialize (T id I). apply Z.eqb_eq in T. exact T.
Qed.
Lemma ready_sources s k : nmea_ready s k = Some true -> n_act s = mGNSS \/ in_fused k = false -> forall id, In id (sources_gnss k) -> timed id -> s_tow (n_slot s id) = utc_tow s.
Proof.
  intros R M id I (T1 & T2 & T3). pose proof (ready_tows s k R M) as H. unfold get_tow, msg_get in H.
  destruct k; cbn [sources_gnss In] in I; cbn [tow_mask solution_mask In] in H;
    repeat (destruct I as [<-|I]; [first [reflexivity | match goal with |- s_tow (n_slot s ?x) = _ => apply (H x); tauto end | contradiction]|]); destruct I.
Qed.
(** GSA: the observations *)
Lemma ready_gsa s : nmea_ready s GSA = Some true -> n_seq_count s = n_seq_total s - 1 /\
  exists d, gpsdiff (as_wn (n_slot s sGPS_TIME_G)) (s_tow (n_slot s sGPS_TIME_G)) (n_obs_wn s) (n_obs_tow s) = Some d /\ dgtb d dzero = false.
Proof.
  unfold nmea_ready. destruct (_ && _); [discriminate|]. change (in_fused GSA) with false. rewrite andb_false_r. destruct (_ =? _); [discriminate|]. cbv zeta.
  destruct (kind_eq_dec GSA GSA); [|contradiction]. destruct (Z.eqb_spec (n_seq_count s) (n_seq_total s - 1)); cbn [negb]; [|discriminate].
  unfold msg_get. destruct (gpsdiff _ _ _ _) as [d|]; [|discriminate]. destruct (dgtb d dzero) eqn:G; [discriminate|]. intros _. split; [assumption|]. exists d. auto.
Qed.
(** readiness, completely: GNSS path, kinds other than GSA *)
Lemma ready_iff s k : n_act s = mGNSS -> n_req s <> mFUSED \/ in_fused k = true -> k <> GSA ->
  (nmea_ready s k = Some true <-> n_last s k <> utc_tow s /\ forall id, In id (tow_mask k) -> s_tow (n_slot s id) = utc_tow s).
Proof.
  intros A RQ NG. split.
  - intros R. split.
    + unfold nmea_ready in R. destruct (_ && _); [discriminate|]. rewrite A in R. cbn [mode_eqb andb] in R.
      destruct (Z.eqb_spec (n_last s k) (get_tow s sUTC_TIME_G false)) as [|N]; [discriminate|exact N].
    + intros id I. pose proof (ready_tows s k R (or_introl A) id I) as H. destruct k; cbn [tow_mask solution_mask In] in I;
        repeat (destruct I as [<-|I]; [exact H|]); destruct I.
  - intros [N T]. unfold nmea_ready. replace (mode_eqb (n_req s) mFUSED && negb (in_fused k)) with false.
    2:{ destruct RQ as [RQ|RQ]; [destruct (n_req s); try reflexivity; contradiction|rewrite RQ; cbn; rewrite andb_false_r; reflexivity]. }
    rewrite A. cbn [mode_eqb andb]. change (get_tow s sUTC_TIME_G false) with (utc_tow s). apply Z.eqb_neq in N. rewrite N. cbv zeta.
    destruct (kind_eq_dec k GSA); [contradiction|]. f_equal. apply forallb_forall. intros id I. apply Z.eqb_eq. rewrite <- (T id I).
    destruct k; cbn [tow_mask solution_mask In] in I; repeat (destruct I as [<-|I]; [reflexivity|]); destruct I.
Qed.
(** the fused path *)
Lemma ready_fused s k : nmea_ready s k = Some true -> n_act s = mFUSED -> in_fused k = true -> n_wagon s = true.
Proof.
  unfold nmea_ready. intros R A F. destruct (_ && _); [discriminate|]. rewrite A, F in R. cbn [mode_eqb andb] in R. destruct (n_wagon s); [reflexivity|discriminate].
Qed.
End P.
