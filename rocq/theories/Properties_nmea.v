(** C44, C47, C49, C55: the texts of the NMEA sentences. *)
From Coq Require Import String Reals Lra Sorted.
From Flocq Require Import IEEE754.Binary IEEE754.Bits.
From Verif Require Import Base Double_model Signals_model RtcmMsm_model RtcmLegacy_model Sbp2Msm_model Sbp2Rtcm_model NmeaText_model NmeaText_proofs NmeaTime_model NmeaTime_spec NmeaTime_proofs
  Nmea_model Nmea_spec NmeaState_model NmeaState_spec NmeaState_proofs NmeaObs_proofs NmeaSend_proofs NmeaLists_spec NmeaLists_proofs NmeaRun_proofs NmeaExample.
Open Scope Z_scope.
Open Scope list_scope.

(** ** C44 *)
(** Whatever is printed into the buffer of max + 6 characters, nothing is written outside it. *)
Theorem C44_buffer_never_overrun : forall max init parts, 1 <= max -> len init = max + 6 -> parts <> [] -> exists txt, sentence max init parts = Ok txt.
Proof. intros max init parts M L N. exact (sentence_in_bounds max init parts M L N). Qed.

(** Nor outside the 23 characters of a UTC time string, for every content of a UTC message. *)
Lemma sum_bytes_cut ps init : ps <> [] -> len init = 23 -> Forall body_char (List.concat ps) ->
  bind (printfs NMEA_TS_MAX_LEN (init, 0) ps) (fun '(mem, _) => Ok (cstring mem)) = Ok (take 22 (List.concat ps)).
Proof.
  intros N L F. destruct (printfs_all 23 23 init ps ltac:(lia) ltac:(lia) L N) as ([mem p] & E & H). unfold NMEA_TS_MAX_LEN. rewrite E. cbn [bind]. destruct H as (_ & _ & rest & EM). cbn [fst] in EM.
  rewrite EM. f_equal. apply cstring_app. change (23 - 1) with 22. apply Forall_forall. intros c I.
  assert (B : body_char c) by (rewrite Forall_forall in F; apply F; rewrite <- (take_drop 22 (List.concat ps)); apply in_or_app; left; exact I). unfold body_char in B. lia.
Qed.
Theorem C44_time_string_never_overrun : forall init time date trunc u, len init = 23 -> wf_utc u -> time || date = true ->
  exists txt, get_utc_time_string init time date trunc u = Ok txt /\ Forall body_char txt /\ utc_text time date trunc u = Some txt.
Proof.
  intros init time date trunc u L W TD.
  assert (E : exists ps, utc_pieces time date trunc u = Some ps /\ ps <> []).
  { unfold utc_pieces. destruct (u_flags u =? 0).
    - eexists. split; [reflexivity|]. destruct time, date, trunc; try discriminate; intros H; discriminate H.
    - destruct (round_cs_spec (u_ns u)) as (z & Z1 & Z2 & _); [destruct W as (_ & _ & _ & _ & _ & _ & W); exact W|].
      assert (R : exists r, round_utc_time u = Some r).
      { unfold round_utc_time. rewrite Z1. cbv zeta. repeat match goal with |- exists r, (if ?b then _ else _) = _ => destruct b end; eauto. }
      destruct R as [r ->]. eexists. split; [reflexivity|]. destruct time, date, trunc; try discriminate; intros H; discriminate H. }
  destruct E as (ps & E & N). assert (TX : utc_text time date trunc u = Some (take 22 (List.concat ps))) by (unfold utc_text; rewrite E; reflexivity).
  destruct (T_utc False time date trunc u _ W ltac:(tauto) TX) as [B _].
  assert (B' : Forall body_char (List.concat ps)).
  { exact (proj1 (T_pieces False time date trunc u ps W E)). }
  exists (take 22 (List.concat ps)). unfold get_utc_time_string. rewrite E. split; [apply sum_bytes_cut; assumption|]. split; [exact B|exact TX].
Qed.

Lemma xor_checksum l : xor_of l = checksum l.
Proof.
  unfold xor_of, checksum. assert (G : forall l a, fold_left Z.lxor l a = Z.lxor a (fold_right Z.lxor 0 l)).
  { induction l0 as [|x l0 IH]; intros a; cbn [fold_left fold_right]; [rewrite Z.lxor_0_r; reflexivity|]. rewrite IH. apply Z.lxor_assoc. }
  rewrite G. apply Z.lxor_0_l.
Qed.
Lemma hex_ok b : 0 <= b < 256 -> hex_digit_of (b / 16) (hexdigit (b / 16)) /\ hex_digit_of (b mod 16) (hexdigit (b mod 16)).
Proof.
  intros B. assert (0 <= b / 16 < 16) by (split; [apply Z.div_pos; lia|apply Z.div_lt_upper_bound; lia]). pose proof (Z.mod_pos_bound b 16 ltac:(lia)).
  unfold hex_digit_of, hexdigit. split; match goal with |- context [?x <? 10] => destruct (Z.ltb_spec x 10) end; lia.
Qed.
(** the text delivered for a body, cut to the room in the buffer *)
Lemma delivered max buf parts body : 2 <= max -> len buf = max + 6 -> List.concat parts = 36 :: body -> Forall body_char body ->
  exists txt, sentence max buf parts = Ok txt /\ nmea_sentence (take (max - 2) body) txt.
Proof.
  intros M L E F. eexists. split.
  - apply (sentence_text max buf parts body M L E). eapply Forall_impl; [|exact F]. intros c (C1 & C2 & C3). unfold plain, byte, STAR. lia.
  - assert (FT : Forall body_char (take (max - 2) body)) by (rewrite <- (take_drop (max - 2) body) in F; apply Forall_app in F; tauto).
    split; [exact FT|]. rewrite xor_checksum. set (b := take (max - 2) body) in *.
    assert (B : 0 <= checksum b < 256).
    { rewrite <- xor_checksum. apply xor_byte; [|lia]. eapply Forall_impl; [|exact FT]. intros c (C1 & _). unfold byte. lia. }
    destruct (hex_ok _ B) as [H1 H2]. exists (hexdigit (checksum b / 16)), (hexdigit (checksum b mod 16)). split; [|split; assumption]. reflexivity.
Qed.
Lemma last_msg_in glo req id cs : forall d, last_msg glo req id cs d = d \/ exists i, In (CMsg i (last_msg glo req id cs d)) cs.
Proof.
  induction cs as [|c cs IH]; intros d; cbn [last_msg]; [left; reflexivity|].
  destruct c as [i m|m|k r|b|f|a b]; try (destruct (IH d) as [H|[j H]]; [left; exact H|right; exists j; right; exact H]).
  set (d' := if sid_eq_dec _ id then _ else _). destruct (IH d') as [H|[j H]]; [|right; exists j; right; exact H]. rewrite H.
  unfold d'. destruct (sid_eq_dec _ id); [|left; reflexivity]. destruct (thrown_away _ _ _); [left; reflexivity|]. right. exists i. left. reflexivity.
Qed.

Section Sentences.
(** external functions: signal codes, "%.nf", geoid, square roots and arc tangents *)
Variable code_of : Z -> code.
Variable ff : Z -> Z -> dbl -> list Z.
Variable geoid : dbl -> dbl -> dbl.
Variable knots kmh course : Z -> Z -> dbl.
Variable gst_vals : Z -> list dbl.
Variable pubx_acc : Z -> dbl * dbl.
Variable heading_float mm_down : Z -> dbl.
(** a printed floating-point number contains neither '$', '*', ',' nor unprintable characters; GST prints six of them *)
Hypothesis ff_ok : forall w p x, Forall body_char (ff w p x) /\ commas (ff w p x) = 0.
Hypothesis gst_six : forall c, List.length (gst_vals c) = 6%nat.
Notation builders := (send code_of ff geoid knots kmh course gst_vals pubx_acc heading_float mm_down).

(** In every history of calls every sentence delivered consists of '$', printable characters without '$' and '*', '*', the two hexadecimal digits of
    their exclusive or, CR and LF; the contents of the buffer before do not matter. *)
Theorem C44_every_sentence : forall eps req cs s' os o max parts buf, Forall wf_call cs -> run code_of builders eps (init req) cs = Some (s', os) ->
  In o os -> In (max, parts) (o_sents o) -> len buf = max + 6 -> exists body txt, sentence max buf parts = Ok txt /\ nmea_sentence body txt.
Proof.
  intros eps req cs s' os o max parts buf W E I J L.
  destruct (emission code_of builders eps (send_frame code_of ff geoid knots kmh course gst_vals pubx_acc heading_float mm_down) _ _ _ _ _ E I)
    as (cs1 & cs2 & t & -> & WT & _ & _ & _ & _ & SN & _). apply Forall_app in W. specialize (WT (proj1 W)).
  destruct (builders (o_kind o) t) as [[s1 l]|] eqn:SE; [|discriminate SN]. cbn [option_map snd] in SN. apply Some_inj in SN. subst l.
  pose proof (send_good code_of ff geoid knots kmh course gst_vals pubx_acc heading_float mm_down ff_ok gst_six t WT _ _ _ SE) as G.
  rewrite Forall_forall in G. destruct (G _ J) as (M & body & B1 & B2 & _). cbn [fst snd] in *.
  destruct (delivered max buf parts body M L B1 B2) as (txt & T1 & T2). exists (take (max - 2) body), txt. split; assumption.
Qed.

(** ** C55 *)
(** Every sentence of a kind has the same number of fields (GSV: four per satellite), with or without fix, unless its text fills the whole buffer. *)
Theorem C55_field_count : forall eps req cs s' os o max parts buf, Forall wf_call cs -> (forall id m, In (CMsg id m) cs -> utc_ok (as_utc m)) ->
  run code_of builders eps (init req) cs = Some (s', os) -> In o os -> In (max, parts) (o_sents o) -> len buf = max + 6 ->
  exists body txt, sentence max buf parts = Ok txt /\ nmea_sentence body txt /\ (field_commas (o_kind o) (commas body) \/ len txt = max + 4).
Proof.
  intros eps req cs s' os o max parts buf W U E I J L.
  destruct (emission code_of builders eps (send_frame code_of ff geoid knots kmh course gst_vals pubx_acc heading_float mm_down) _ _ _ _ _ E I)
    as (cs1 & cs2 & t & -> & WT & SL & _ & _ & _ & SN & _). apply Forall_app in W. specialize (WT (proj1 W)).
  assert (UO : utc_slots_ok t).
  { intros id. rewrite SL. destruct (last_msg_in (is_glo code_of) req id cs1 zeroed) as [->|[j H]]; [left; reflexivity|]. apply (U j). apply in_or_app. left. exact H. }
  destruct (builders (o_kind o) t) as [[s1 l]|] eqn:SE; [|discriminate SN]. cbn [option_map snd] in SN. apply Some_inj in SN. subst l.
  pose proof (send_good code_of ff geoid knots kmh course gst_vals pubx_acc heading_float mm_down ff_ok gst_six t WT _ _ _ SE) as G.
  rewrite Forall_forall in G. destruct (G _ J) as (M & body & B1 & B2 & B3). cbn [fst snd] in *.
  destruct (delivered max buf parts body M L B1 B2) as (txt & T1 & T2). exists (take (max - 2) body), txt. split; [exact T1|]. split; [exact T2|].
  destruct (Z.le_gt_cases (len body) (max - 2)).
  - left. rewrite take_all by assumption. exact (B3 UO).
  - right. destruct T2 as (_ & h1 & h2 & -> & _). rewrite !len_app, len_take, !len_cons, !(@len_nil Z). lia.
Qed.

(** ** C47 *)
(** GSA: one sentence per constellation with satellites in the observations (a single empty one without any), the numbers distinct and ascending, at most 12,
    all of them satellites of the observations, and none left out when fewer than 12. *)
Theorem C47_gsa : forall st s' sents, builders GSA st = Some (s', sents) ->
  exists groups, len sents = len groups /\
    (forall i x t ids, nth_error sents i = Some x -> nth_error groups i = Some (t, ids) -> fst x = 120 /\ gsa_numbers code_of t (n_sids st) ids /\
       exists name, (name = talker_name t /\ len groups <= 1 \/ name = [71; 78] /\ 1 < len groups) /\
       gsa_text name (negb (Z.land (d_flags (as_dops (n_slot st sDOPS))) 7 =? 0)) ids (List.concat (snd x))) /\
    StronglySorted Z.lt (List.map fst groups) /\
    (forall t id g, 0 <= t < 4 -> In g (n_sids st) -> sat_of code_of t id g -> In t (List.map fst groups)) /\
    ((forall t id g, In g (n_sids st) -> ~ sat_of code_of t id g) -> groups = [(0, [])]).
Proof.
  intros st s' sents H. cbn [send] in H. destruct (send_gsa code_of ff st) as [l|] eqn:E; [|discriminate H]. cbn [pure] in H. apply Some_inj in H. apply (f_equal snd) in H. cbn [snd] in H. subst l.
  unfold send_gsa in E. cbv zeta in E. unfold msg_get in E. set (d := as_dops _) in *. clearbody d.
  destruct (gsa_list code_of 0 (n_sids st) []) as [l0|] eqn:E0; [|discriminate E]. destruct (gsa_list code_of 1 (n_sids st) []) as [l1|] eqn:E1; [|discriminate E].
  destruct (gsa_list code_of 2 (n_sids st) []) as [l2|] eqn:E2; [|discriminate E]. destruct (gsa_list code_of 3 (n_sids st) []) as [l3|] eqn:E3; [|discriminate E].
  set (all := [(0, l0); (1, l1); (2, l2); (3, l3)]) in *. set (nonempty := fun '(_, l) => negb (len l =? 0)) in *.
  assert (ALL : forall t l, In (t, l) all -> 0 <= t < 4 /\ gsa_list code_of t (n_sids st) [] = Some l).
  { intros t l I. unfold all in I. cbn [In] in I. destruct I as [I|[I|[I|[I|[]]]]]; injection I as <- <-; split; try lia; assumption. }
  assert (SRT : StronglySorted Z.lt (List.map fst (filter nonempty all))).
  { assert (G : StronglySorted Z.lt (List.map fst all)) by (unfold all; cbn [List.map fst]; repeat (constructor; [|repeat constructor; lia]); constructor).
    clear - G. revert G. generalize all. induction all0 as [|[t l] r IH]; cbn [filter List.map fst]; intros G; [constructor|]. inversion G; subst.
    destruct (nonempty (t, l)); [|auto]. cbn [List.map fst]. constructor; [auto|]. rewrite Forall_forall in *. intros x I. apply H2. apply in_map_iff in I. destruct I as ([a b] & <- & I). apply filter_In in I. apply in_map_iff. exists (a, b). tauto. }
  assert (COV : forall t id g, 0 <= t < 4 -> In g (n_sids st) -> sat_of code_of t id g -> exists l, In (t, l) (filter nonempty all)).
  { intros t id g T I S. assert (X : exists l, In (t, l) all). { assert (C : t = 0 \/ t = 1 \/ t = 2 \/ t = 3) by lia. unfold all. destruct C as [->|[->|[->| ->]]]; eexists; cbn [In]; tauto. }
    destruct X as [l X]. exists l. apply filter_In. split; [exact X|]. unfold nonempty. destruct (ALL _ _ X) as [_ GL].
    destruct (gsa_list_spec code_of t _ _ _ (proj1 T) GL) as (_ & _ & _ & _ & R5 & _); [constructor|rewrite (@len_nil Z); lia|].
    destruct (Z.eqb_spec (len l) 0) as [Z0|]; [|reflexivity]. assert (IN : In id l) by (apply (R5 ltac:(lia) id g I S)). destruct l; [destruct IN|]. rewrite len_cons in Z0. pose proof (len_nonneg l). lia. }
  assert (ROW : forall t l name, In (t, l) all -> gsa_numbers code_of t (n_sids st) (sort l) /\ gsa_text name (negb (pmode (d_flags d) =? 0)) (sort l) (List.concat (snd (gsa_print ff l d name)))).
  { intros t l name I. destruct (ALL _ _ I) as [T GL]. split; [apply gsa_numbers_sort; [lia|exact GL]|].
    destruct (gsa_list_spec code_of t _ _ _ (proj1 T) GL) as (_ & R2 & R3 & _ & _ & _); [constructor|rewrite (@len_nil Z); lia|]. apply (gsa_print_text code_of ff); [exact R2|].
    apply Forall_forall. intros id ID. destruct (R3 id ID) as [[]|(g & _ & S)]. rewrite (sat_id _ _ _ _ S). apply nmea_id_range. }
  destruct (Z.eqb_spec (len (filter nonempty all)) 0) as [N0|N0].
  - apply Some_inj in E. subst sents. assert (FN : filter nonempty all = []) by (destruct (filter nonempty all) as [|x r]; [reflexivity|rewrite len_cons in N0; pose proof (len_nonneg r); lia]).
    assert (L0 : l0 = []). { assert (X : nonempty (0, l0) = false). { destruct (nonempty (0, l0)) eqn:X; [|reflexivity]. assert (Y : In (0, l0) (filter nonempty all)) by (apply filter_In; split; [left; reflexivity|exact X]). rewrite FN in Y. destruct Y. }
      unfold nonempty in X. destruct l0 as [|x r]; [reflexivity|]. rewrite len_cons in X. pose proof (len_nonneg r). destruct (Z.eqb_spec (1 + len r) 0); [lia|discriminate X]. }
    exists [(0, [])]. split; [reflexivity|]. split; [|split; [repeat constructor|split]].
    + intros i x t ids X Y. destruct i as [|i]; [|destruct i; discriminate X]. cbn [nth_error] in X, Y. apply Some_inj in X. subst x. injection Y as <- <-. split; [reflexivity|].
      destruct (ROW 0 l0 (str "GP") (or_introl eq_refl)) as [R1 R2]. rewrite L0 in R1, R2 |- *. split; [exact R1|]. exists (talker_name 0). split; [left; split; [reflexivity|rewrite len_cons, (@len_nil (Z * list Z)); lia]|]. exact R2.
    + intros t id g T I S. destruct (COV t id g T I S) as [l X]. rewrite FN in X. destruct X.
    + reflexivity.
  - apply Some_inj in E. set (used := filter nonempty all) in *. exists (List.map (fun '(t, l) => (t, sort l)) used).
    assert (LM : forall (A B : Type) (f : A -> B) x, len (List.map f x) = len x) by (intros; unfold len; rewrite map_length; reflexivity).
    assert (FS : List.map fst (List.map (fun '(t, l) => (t, sort l)) used) = List.map fst used) by (rewrite map_map; apply map_ext; intros [t l]; reflexivity).
    subst sents. split; [rewrite !LM; reflexivity|]. split; [|split; [rewrite FS; exact SRT|split]].
    + intros i x t ids X Y. rewrite nth_error_map in X, Y. destruct (nth_error used i) as [[t' l]|] eqn:N; [|discriminate X]. cbn [option_map] in X, Y. apply Some_inj in X. subst x. injection Y as <- <-.
      assert (IN : In (t', l) all) by (apply nth_error_In in N; unfold used in N; apply filter_In in N; tauto). split; [reflexivity|]. rewrite LM.
      set (name := if 1 <? len used then str "GN" else talker_str t'). destruct (ROW t' l name IN) as [R1 R2]. split; [exact R1|]. exists name. split; [|exact R2]. unfold name.
      destruct (Z.ltb_spec 1 (len used)); [right; split; [reflexivity|assumption]|left; split; [apply (talker_name_eq code_of ff); apply (ALL _ _ IN)|lia]].
    + intros t id g T I S. rewrite FS. destruct (COV t id g T I S) as [l X]. apply in_map_iff. exists (t, l). split; [reflexivity|exact X].
    + intros NO. exfalso. destruct used as [|[t l] r] eqn:U; [apply N0; reflexivity|]. assert (IN : In (t, l) (filter nonempty all)) by (fold used; rewrite U; left; reflexivity).
      apply filter_In in IN. destruct IN as [IN NE]. destruct (ALL _ _ IN) as [T GL]. destruct l as [|id l]; [discriminate NE|].
      destruct (gsa_list_spec code_of t _ _ _ (proj1 T) GL) as (_ & _ & R3 & _); [constructor|rewrite (@len_nil Z); lia|]. destruct (R3 id (or_introl eq_refl)) as [[]|(g & G1 & G2)]. exact (NO t id g G1 G2).
Qed.

(** GSV: for each of the four talkers the satellites of the azimuth/elevation message that belong to it, in order, four per sentence, numbered 1 to the total. *)
Theorem C47_gsv : forall st s' sents, wf_state st -> builders GSV st = Some (s', sents) ->
  let az := as_azel (n_slot st sAZEL) in let ms := as_meas (n_slot st sMEAS) in
  exists g0 g1 g2 g3, gsv_group code_of 0 ms (filter (in_talker code_of 0) az) g0 /\ gsv_group code_of 1 ms (filter (in_talker code_of 1) az) g1 /\
    gsv_group code_of 2 ms (filter (in_talker code_of 2) az) g2 /\ gsv_group code_of 3 ms (filter (in_talker code_of 3) az) g3 /\
    List.map (fun x => List.concat (snd x)) sents = (if len (g0 ++ g1 ++ g2 ++ g3) =? 0 then [str "$GPGSV,1,1,0"] else g0 ++ g1 ++ g2 ++ g3).
Proof.
  intros st s' sents [W _] H az ms. cbn [send] in H. destruct (send_gsv code_of st) as [l|] eqn:E; [|discriminate H]. cbn [pure] in H. apply Some_inj in H. apply (f_equal snd) in H. cbn [snd] in H. subst l.
  unfold send_gsv in E. cbv zeta in E. unfold msg_get in E. fold az in E. fold ms in E.
  assert (WA : Forall (fun a => 0 <= ae_az a) az).
  { pose proof (W sAZEL) as X. unfold az, as_azel. unfold wf_slot in X. destruct (s_body _); try constructor. eapply Forall_impl; [|exact X]. intros a (_ & A & _). unfold u8 in A. lia. }
  assert (WM : Forall (fun m => 0 <= me_cn0 m) ms).
  { pose proof (W sMEAS) as X. unfold ms, as_meas. unfold wf_slot in X. destruct (s_body _); try constructor. eapply Forall_impl; [|exact X]. intros a (_ & A). unfold u8 in A. lia. }
  assert (FT : forall t, Forall (fun a => in_talker code_of t a = true /\ 0 <= ae_az a) (filter (in_talker code_of t) az)).
  { intros t. apply Forall_forall. intros a I. apply filter_In in I. rewrite Forall_forall in WA. destruct I as [I1 I2]. split; [exact I2|apply WA, I1]. }
  destruct (gsv_list code_of 0 az ms) as [l0|] eqn:E0; [|discriminate E]. destruct (gsv_list code_of 1 az ms) as [l1|] eqn:E1; [|discriminate E].
  destruct (gsv_list code_of 2 az ms) as [l2|] eqn:E2; [|discriminate E]. destruct (gsv_list code_of 3 az ms) as [l3|] eqn:E3; [|discriminate E].
  apply (gsv_list_spec code_of ff) in E0, E1, E2, E3; try lia. subst l0 l1 l2 l3. apply Some_inj in E. subst sents.
  set (txt := fun x : sent => List.concat (snd x)).
  set (p := fun t => List.map txt (gsv_print code_of t (List.map (el_of code_of ms) (filter (in_talker code_of t) az)))).
  exists (p 0), (p 1), (p 2), (p 3).
  split; [apply (gsv_print_text code_of ff); [lia|assumption|apply FT]|]. split; [apply (gsv_print_text code_of ff); [lia|assumption|apply FT]|]. split; [apply (gsv_print_text code_of ff); [lia|assumption|apply FT]|]. split; [apply (gsv_print_text code_of ff); [lia|assumption|apply FT]|].
  assert (LM : forall (A B : Type) (f : A -> B) x, len (List.map f x) = len x) by (intros; unfold len; rewrite map_length; reflexivity).
  unfold p. rewrite <- !map_app. rewrite LM. match goal with |- context [len ?x =? 0] => destruct (len x =? 0) end; reflexivity.
Qed.
End Sentences.

(** every satellite of the message is in exactly one of the four groups unless its constellation is unknown *)
Theorem C47_groups_cover : forall code_of a c, cons_of (code_of (sg_code (ae_sid a))) = Some c -> c <> cINVALID ->
  exists t, 0 <= t < 4 /\ in_talker code_of t a = true /\ forall t', in_talker code_of t' a = true -> t' = t.
Proof.
  intros code_of a c E N. unfold in_talker. rewrite E. destruct c; try contradiction; [exists 0|exists 0|exists 1|exists 3|exists 0|exists 2]; (split; [lia|]; split; [reflexivity|]; intros t'; apply Z.eqb_eq).
Qed.
(** satellites of one talker have different numbers: GPS 1..32, SBAS 120..158, QZSS 193..202, GLONASS 1..28, Galileo 1..36, BeiDou 1..64 *)
Definition sat_range (c : cons) (sat : Z) : Prop :=
  match c with cGPS => 1 <= sat <= 32 | cSBAS => 120 <= sat <= 158 | cQZS => 193 <= sat <= 202 | cGLO => 1 <= sat <= 28 | cGAL => 1 <= sat <= 36 | cBDS => 1 <= sat <= 64 | cINVALID => False end.
Theorem C47_numbers_distinct : forall c d sat sat' t, talker_of c t -> talker_of d t -> sat_range c sat -> sat_range d sat' -> id_of c sat mod 65536 = id_of d sat' mod 65536 -> c = d /\ sat = sat'.
Proof.
  intros c d a b t T1 T2 R1 R2 E. assert (B : 0 <= id_of c a < 65536 /\ 0 <= id_of d b < 65536) by (destruct c, d; cbn [id_of sat_range] in *; lia).
  rewrite !Z.mod_small in E by lia. destruct c, d; cbn [talker_of id_of sat_range] in *; try lia; (split; [reflexivity|lia]).
Qed.
(** ... but the SBAS satellites from 152 on have numbers of GLONASS satellites (NMEA assigns 65..96 to GLONASS) *)
Theorem C47_sbas_glonass_overlap_refuted : id_of cSBAS 152 = id_of cGLO 1 /\ id_of cSBAS 158 = id_of cGLO 7.
Proof. split; reflexivity. Qed.

(** ** C49 *)
Definition two (n : Z) : list Z := [48 + n / 10; 48 + n mod 10].
(** The time of day and date printed are a valid time of the calendar at most half a hundredth of a second away, with every carry.
    Partial: not around a leap second. *)
Theorem C49_rounding_partial : forall t, valid_utc t -> 0 <= u_ns t < 1000000000 -> u_flags t <> 0 ->
  exists r, 0 <= u_year r <= 65535 /\ 1 <= u_month r <= 12 /\ 1 <= u_day r <= days_in_month (u_year r) (u_month r) /\
    0 <= u_hours r < 24 /\ 0 <= u_minutes r < 60 /\ 0 <= u_seconds r < 60 /\ 0 <= u_ns r < 100 /\
    Z.abs (10000000 * (100 * second_number r + u_ns r) - (1000000000 * second_number t + u_ns t)) <= 5000000 /\
    let time := two (u_hours r) ++ two (u_minutes r) ++ two (u_seconds r) ++ [46] ++ two (u_ns r) ++ [44] in
    forall init, len init = 23 ->
      get_utc_time_string init true false false t = Ok time /\
      get_utc_time_string init false true true t = Ok (two (u_day r) ++ two (u_month r) ++ two (u_year r mod 100) ++ [44]) /\
      exists y, number 0 (u_year r) y /\ get_utc_time_string init true true false t = Ok (time ++ two (u_day r) ++ [44] ++ two (u_month r) ++ [44] ++ y ++ [44]).
Proof.
  intros t V N F. destruct (round_utc_spec t V N) as (r & R & FR & Y & M & D & H & MI & SE & CS & A). exists r.
  repeat (split; [assumption|]). intros time init L. pose proof (dim_range (u_year r) (u_month r) M).
  assert (YM : 0 <= u_year r mod 100 < 100) by (apply Z.mod_pos_bound; lia).
  assert (B2 : forall n, 0 <= n < 100 -> Forall body_char (two n) /\ len (two n) = 2).
  { intros n Q. assert (0 <= n / 10 < 10) by (split; [apply Z.div_pos; lia|apply Z.div_lt_upper_bound; lia]). pose proof (Z.mod_pos_bound n 10 ltac:(lia)). unfold two, body_char.
    split; [repeat (apply Forall_cons; [lia|]); apply Forall_nil|]. rewrite !len_cons, (@len_nil Z). lia. }
  assert (UT : forall a b c, utc_pieces a b c t = Some ((if a then [time] else []) ++
     (if b then if c then [two (u_day r) ++ two (u_month r) ++ two (u_year r mod 100) ++ [44]] else [two (u_day r) ++ [44] ++ two (u_month r) ++ [44] ++ fmt_u 0 (u_year r) ++ [44]] else []))).
  { intros a b c. unfold utc_pieces, time. destruct (Z.eqb_spec (u_flags t) 0); [contradiction|]. rewrite R. rewrite !two_digits by lia. reflexivity. }
  assert (T10 : Forall body_char time /\ len time = 10).
  { unfold time. rewrite !len_app. destruct (B2 (u_hours r) ltac:(lia)) as [C1 C2]. destruct (B2 (u_minutes r) ltac:(lia)) as [C3 C4]. destruct (B2 (u_seconds r) ltac:(lia)) as [C5 C6]. destruct (B2 (u_ns r) ltac:(lia)) as [C7 C8].
    rewrite C2, C4, C6, C8, !len_cons, (@len_nil Z). split; [|reflexivity]. repeat (apply Forall_app; split; try assumption); repeat (apply Forall_cons; [unfold body_char; lia|]); apply Forall_nil. }
  destruct (B2 (u_day r) ltac:(lia)) as [D1 D2]. destruct (B2 (u_month r) ltac:(lia)) as [M1 M2]. destruct (B2 (u_year r mod 100) ltac:(lia)) as [Y1 Y2].
  assert (C44 : Forall body_char [44]) by (apply Forall_cons; [unfold body_char; lia|apply Forall_nil]).
  assert (Y5 : len (fmt_u 0 (u_year r)) <= 5) by (pose proof (len_fmt_u_le 0 (u_year r) 5); lia).
  assert (YB : Forall body_char (fmt_u 0 (u_year r))). { apply (proj1 (T_digits True _ (pad_digits 0 _ (dec_digits (u_year r) (proj1 Y))))). }
  destruct T10 as [T1 T2].
  split; [|split; [|exists (fmt_u 0 (u_year r)); split; [apply fmt_u_number; lia|]]].
  - unfold get_utc_time_string. rewrite UT. cbn [app]. rewrite sum_bytes_cut; [|discriminate|exact L|]; cbn [List.concat]; rewrite app_nil_r; [rewrite take_all by lia; reflexivity|exact T1].
  - unfold get_utc_time_string. rewrite UT. cbn [app].
    assert (LD : len (two (u_day r) ++ two (u_month r) ++ two (u_year r mod 100) ++ [44]) = 7) by (rewrite !len_app, D2, M2, Y2, len_cons, (@len_nil Z); reflexivity).
    rewrite sum_bytes_cut; [|discriminate|exact L|]; cbn [List.concat]; rewrite app_nil_r; [rewrite take_all by lia; reflexivity|].
    repeat (apply Forall_app; split; try assumption).
  - unfold get_utc_time_string. rewrite UT. cbn [app].
    assert (LD : len (two (u_day r) ++ [44] ++ two (u_month r) ++ [44] ++ fmt_u 0 (u_year r) ++ [44]) <= 12) by (rewrite !len_app, D2, M2, !len_cons, (@len_nil Z); lia).
    rewrite sum_bytes_cut; [|discriminate|exact L|]; cbn [List.concat]; rewrite app_nil_r.
    + rewrite take_all; [reflexivity|]. rewrite len_app. rewrite T2. change 22 with (10 + 12). apply Z.add_le_mono_l. exact LD.
    + apply Forall_app; split; [exact T1|]. repeat first [assumption | apply Forall_nil | apply Forall_cons; [unfold body_char; lia|] | apply Forall_app; split].
Qed.
(** within a leap second the time printed is the leap second's or the following midnight, at most half a hundredth of a second away *)
Theorem C49_within_leap_second_partial : forall t, valid_utc (mkutc (u_flags t) (u_year t) (u_month t) (u_day t) (u_hours t) (u_minutes t) 59 0) -> u_hours t = 23 -> u_minutes t = 59 -> u_seconds t = 60 ->
  0 <= u_ns t < 1000000000 ->
  exists cs, Z.abs (10000000 * cs - u_ns t) <= 5000000 /\
    (0 <= cs < 100 /\ round_utc_time t = Some (mkutc (u_flags t) (u_year t) (u_month t) (u_day t) 23 59 60 cs) \/
     cs = 100 /\ exists r, round_utc_time t = Some r /\ valid_utc (mkutc (u_flags r) 0 (u_month r) 1 0 0 0 0) /\ u_hours r = 0 /\ u_minutes r = 0 /\ u_seconds r = 0 /\ u_ns r = 0 /\
       day_number r = day_number t + 1).
Proof.
  intros t V H M S N. destruct (round_cs_spec (u_ns t) ltac:(lia)) as (cs & C & CR & CA). exists cs. split; [exact CA|]. unfold valid_utc in V. cbn [u_year u_month u_day u_hours u_minutes u_seconds] in V.
  destruct V as (VY & VM & VD & _). pose proof (dim_range (u_year t) (u_month t) VM) as DR.
  unfold round_utc_time. rewrite C. destruct (Z.leb_spec 100 cs) as [L|L]; cbn [negb].
  2:{ left. split; [lia|]. rewrite H, M, S. reflexivity. }
  right. split; [lia|]. rewrite H, M, S. change ((60 + 1) mod 256) with 61. change ((59 + 1) mod 256) with 60. change ((23 + 1) mod 256) with 24. cbn [Z.leb Z.compare Pos.compare Pos.compare_cont negb].
  rewrite (Z.mod_small (u_day t + 1)) by lia. rewrite (Z.mod_small (u_month t + 1)) by lia. rewrite (Z.mod_small (u_year t + 1)) by lia.
  assert (VV : forall f m, 1 <= m <= 12 -> valid_utc (mkutc f 0 m 1 0 0 0 0)). { intros f m Q. pose proof (dim_range 0 m Q). unfold valid_utc. cbn [u_year u_month u_day u_hours u_minutes u_seconds]. lia. }
  assert (YD : u_month t = 12 -> days_of_months (u_year t) (Z.to_nat (u_month t - 1)) + 31 = if leap (u_year t) then 366 else 365) by (intros ->; apply year_days).
  destruct (Z.ltb_spec (days_in_month (u_year t) (u_month t)) (u_day t + 1)) as [LD|LD]; cbn [negb].
  - assert (ED : u_day t = days_in_month (u_year t) (u_month t)) by lia. destruct (Z.ltb_spec 12 (u_month t + 1)) as [LM|LM]; cbn [negb]; eexists; (split; [reflexivity|]); cbn [u_flags u_month u_hours u_minutes u_seconds u_ns].
    + split; [apply VV; lia|]. repeat (split; [reflexivity|]). unfold day_number. cbn [u_year u_month u_day].
      rewrite doy_succ by lia. specialize (YD ltac:(lia)). change (Z.to_nat (1 - 1)) with O. cbn [days_of_months]. assert (days_in_month (u_year t) (u_month t) = 31) by (replace (u_month t) with 12 by lia; reflexivity). lia.
    + split; [apply VV; lia|]. repeat (split; [reflexivity|]). unfold day_number. cbn [u_year u_month u_day]. replace (u_month t + 1 - 1) with (u_month t) by lia. rewrite dom_succ by lia. lia.
  - eexists. split; [reflexivity|]. cbn [u_flags u_month u_hours u_minutes u_seconds u_ns]. split; [apply VV; lia|]. repeat (split; [reflexivity|]). unfold day_number. cbn [u_year u_month u_day]. lia.
Qed.
Example C49_leap_second_met : round_utc_time (mkutc 1 2016 12 31 23 59 60 250000000) = Some (mkutc 1 2016 12 31 23 59 60 25) /\ round_utc_time (mkutc 1 2016 12 31 23 59 60 997000000) = Some (mkutc 1 2017 1 1 0 0 0 0).
Proof. split; vm_compute; reflexivity. Qed.
(** but 4 ms before the leap second of 2016-12-31 the time is rounded over it, to the midnight after it *)
Theorem C49_before_leap_second_refuted : round_utc_time (mkutc 1 2016 12 31 23 59 59 996000000) = Some (mkutc 1 2017 1 1 0 0 0 0).
Proof. vm_compute. reflexivity. Qed.
Example C49_new_year : exists t, valid_utc t /\ u_ns t = 995000000 /\ round_utc_time t = Some (mkutc 1 2025 1 1 0 0 0 0).
Proof. exists (mkutc 1 2024 12 31 23 59 59 995000000). split; [|split; [reflexivity|vm_compute; reflexivity]]. unfold valid_utc. cbn. lia. Qed.
(** 28 February of a leap year, one hundredth before midnight *)
Example C49_leap_day : round_utc_time (mkutc 1 2024 2 28 23 59 59 999000000) = Some (mkutc 1 2024 2 29 0 0 0 0) /\ round_utc_time (mkutc 1 2023 2 28 23 59 59 999000000) = Some (mkutc 1 2023 3 1 0 0 0 0).
Proof. split; vm_compute; reflexivity. Qed.

(** ** a concrete history: satellites in view, an epoch of observations in two messages, an epoch of the GNSS solution *)
Example C44_met : Forall wf_call ex_history /\ (forall id m, In (CMsg id m) ex_history -> utc_ok (as_utc m)) /\
  (forall w p x, Forall body_char (ex_ff w p x) /\ commas (ex_ff w p x) = 0) /\
  NmeaExample.delivered (ex_run mGNSS ex_history) = List.map (fun l => (str l ++ [13; 10])%list)
    ["$GPZDA,000000.00,01,01,2025,,*63"; "$GPGSV,2,1,05,03,45,040,45,05,-5,200,,08,02,002,,09,02,002,*66"; "$GPGSV,2,2,05,10,02,002,*4D"; "$GLGSV,1,1,01,71,20,020,31*50";
     "$GPGGA,000000.00,371.5,N,1221.5,W,4,09,1.5,1.5,M,1.5,M,1.5,0000*69"; "$GPRMC,000000.00,A,371.5,N,1221.5,W,1.5,1.5,010125,,,D*4B"; "$GPVTG,1.5,T,,M,1.5,N,1.5,K,D*0C";
     "$GPGLL,371.5,N,1221.5,W,000000.00,A,D*7B"; "$GPGSA,A,3,03,05,07,,,,,,,,,,1.5,1.5,1.5*37"; "$GPGST,000000.00,,1.5,1.5,1.5,1.5,1.5,1.5*79";
     "$PUBX,00,000000.00,371.5,N,1221.5,W,1.5,D3,1.5,1.5,1.5,1.5,1.5,1.5,1.5,1.5,1.5,9,0,0*53"]%string.
Proof.
  split; [|split; [|split]].
  - unfold ex_history, setup, sky, gnss_epoch, all_kinds, ex_obs. cbn [app List.map].
    repeat (apply Forall_cons; [try exact I|]); try apply Forall_nil; cbn [wf_call om_obs fst]; unfold wf_slot, wf_sid, u8, wf_utc; cbn;
      try (repeat (apply Forall_cons; [cbn; lia|]); apply Forall_nil); unfold u8; lia.
  - intros id m I. unfold ex_history, setup, sky, gnss_epoch, all_kinds, ex_obs in I. cbn [app List.map In] in I. unfold utc_ok.
    repeat (destruct I as [I|I]; [first [discriminate I|injection I as <- <-; cbn [as_utc s_body]; first [left; reflexivity|right; unfold valid_utc, ex_utc; cbn; lia]]|]). destruct I.
  - intros w p x. unfold ex_ff. split; [|reflexivity]. cbn. unfold body_char. repeat (apply Forall_cons; [lia|]). apply Forall_nil.
  - vm_compute. reflexivity.
Qed.

Print Assumptions C44_buffer_never_overrun.
Print Assumptions C44_time_string_never_overrun.
Print Assumptions C44_every_sentence.
Print Assumptions C55_field_count.
Print Assumptions C47_gsa.
Print Assumptions C47_gsv.
Print Assumptions C47_groups_cover.
Print Assumptions C47_numbers_distinct.
Print Assumptions C47_sbas_glonass_overlap_refuted.
Print Assumptions C49_rounding_partial.
Print Assumptions C49_within_leap_second_partial.
Print Assumptions C49_before_leap_second_refuted.
