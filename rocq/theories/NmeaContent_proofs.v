(** The content of the sentences built by each builder. *)
From Coq Require Import String Reals Lra.
From Flocq Require Import Core IEEE754.Binary IEEE754.Bits.
From Verif Require Import Base Double_model Double_proofs Esf_proofs Signals_model RtcmMsm_model RtcmLegacy_model Sbp2Msm_model NmeaText_model NmeaTime_model NmeaTime_spec NmeaTime_proofs
  Nmea_model Nmea_spec NmeaState_model NmeaState_spec NmeaLists_spec NmeaState_proofs NmeaSeq_proofs NmeaSend_proofs NmeaLists_proofs NmeaFields_spec NmeaFields_proofs.
Open Scope Z_scope.
Open Scope list_scope.

Definition plain_field (f : list Z) : Prop := commas f = 0.
Lemma plain_app a b : plain_field a -> plain_field b -> plain_field (a ++ b).
Proof. unfold plain_field. intros. rewrite commas_app. lia. Qed.
Lemma plain_dd n : 0 <= n < 100 -> plain_field (dd n).
Proof.
  intros N. assert (0 <= n / 10 < 10) by (split; [apply Z.div_pos; lia|apply Z.div_lt_upper_bound; lia]). pose proof (Z.mod_pos_bound n 10 ltac:(lia)).
  unfold plain_field, dd. cbn [commas]. destruct (Z.eqb_spec (48 + n / 10) 44); [lia|]. destruct (Z.eqb_spec (48 + n mod 10) 44); lia.
Qed.
Lemma plain_digits l : Forall (fun c => 48 <= c <= 57) l -> plain_field l.
Proof. intros F. induction F as [|c l C F IH]; [reflexivity|]. unfold plain_field in *. cbn [commas]. destruct (Z.eqb_spec c 44); lia. Qed.
Lemma plain_number w n t : number w n t -> plain_field t.
Proof. intros (D & _). apply plain_digits. exact D. Qed.
Lemma plain_nil : plain_field []. Proof. reflexivity. Qed.

Lemma land7 f : Z.land f 7 = f mod 8. Proof. exact (Z.land_ones f 3 ltac:(lia)). Qed.
Lemma pmode_fix f : pmode f = fix_of f. Proof. apply land7. Qed.
Lemma fix_range f : 0 <= fix_of f < 8. Proof. apply Z.mod_pos_bound. lia. Qed.

(** ** time *)
Lemma utc_texts u : utc_ok u -> exists r, utc_rel u r /\ plain_field (time_of u r) /\ plain_field (date_of u r) /\ utc_text true false false u = Some (time_of u r ++ [44]) /\
  utc_text false true true u = Some (date_of u r ++ [44]) /\
  exists y, number 0 (u_year r) y /\ Forall plain_field (if u_flags u =? 0 then [[]; []; []] else [dd (u_day r); dd (u_month r); y]) /\
    utc_text true true false u = Some (time_of u r ++ [44] ++ (if u_flags u =? 0 then [44; 44; 44] else dd (u_day r) ++ [44] ++ dd (u_month r) ++ [44] ++ y ++ [44])).
Proof.
  intros O. unfold time_of, date_of, utc_rel. destruct (Z.eqb_spec (u_flags u) 0) as [F|F].
  - exists (mkutc 0 0 0 0 0 0 0 0). split; [left; exact F|]. unfold utc_text, utc_pieces. rewrite F. cbn [Z.eqb].
    do 2 (split; [reflexivity|]). do 2 (split; [reflexivity|]). exists [48]. split; [|split; [repeat constructor|reflexivity]].
    unfold number. cbn. split; [repeat constructor; lia|]. split; [reflexivity|]. lia.
  - destruct O as [O|[V N]]; [contradiction|]. destruct (round_utc_spec u V N) as (r & R & FR & Y & M & D & H & MI & SE & CS & A).
    assert (YM : 0 <= u_year r mod 100 < 100) by (apply Z.mod_pos_bound; lia). pose proof (dim_range (u_year r) (u_month r) M).
    exists r. split; [right; unfold rounded; auto 10|].
    assert (PD : forall n, 0 <= n < 100 -> plain_field (dd n)) by apply plain_dd.
    split; [repeat (apply plain_app; [apply PD; lia|]); apply plain_app; [reflexivity|apply PD; lia]|].
    split; [apply plain_app; [apply PD; lia|]; apply plain_app; apply PD; lia|].
    assert (UT : forall a b c, utc_pieces a b c u = Some ((if a then [dd (u_hours r) ++ dd (u_minutes r) ++ dd (u_seconds r) ++ [46] ++ dd (u_ns r) ++ [44]] else []) ++
       (if b then if c then [dd (u_day r) ++ dd (u_month r) ++ dd (u_year r mod 100) ++ [44]] else [dd (u_day r) ++ [44] ++ dd (u_month r) ++ [44] ++ fmt_u 0 (u_year r) ++ [44]] else []))).
    { intros a b c. unfold utc_pieces. destruct (Z.eqb_spec (u_flags u) 0); [contradiction|]. rewrite R. rewrite !two_digits by lia. reflexivity. }
    assert (Y5 : len (fmt_u 0 (u_year r)) <= 5) by (pose proof (len_fmt_u_le 0 (u_year r) 5); lia).
    assert (L2 : forall n, len (dd n) = 2) by (intros n; unfold dd; rewrite !len_cons, (@len_nil Z); reflexivity).
    unfold utc_text. rewrite !UT.
    assert (L1 : len (dd (u_hours r) ++ dd (u_minutes r) ++ dd (u_seconds r) ++ [46] ++ dd (u_ns r) ++ [44]) = 10).
    { repeat rewrite ?len_app, ?len_cons, ?L2. rewrite (@len_nil Z). reflexivity. }
    assert (L3 : len (dd (u_day r) ++ dd (u_month r) ++ dd (u_year r mod 100) ++ [44]) = 7).
    { repeat rewrite ?len_app, ?len_cons, ?L2. rewrite (@len_nil Z). reflexivity. }
    assert (L4 : len (dd (u_day r) ++ [44] ++ dd (u_month r) ++ [44] ++ fmt_u 0 (u_year r) ++ [44]) <= 12).
    { repeat rewrite ?len_app, ?len_cons, ?L2. rewrite (@len_nil Z). lia. }
    split. { f_equal; unfold List.concat; rewrite !app_nil_r, take_all by (rewrite L1; lia). all: rewrite <- ?app_assoc; try reflexivity. }
    split. { f_equal; unfold List.concat; rewrite app_nil_l, !app_nil_r, take_all by (rewrite L3; lia). all: rewrite <- ?app_assoc; try reflexivity. }
    exists (fmt_u 0 (u_year r)). split; [apply fmt_u_number; lia|]. split.
    + constructor; [apply PD; lia|]. constructor; [apply PD; lia|]. constructor; [|constructor]. apply (plain_number 0 (u_year r)). apply fmt_u_number; lia.
    + f_equal. cbn [List.concat]. rewrite concat_app. cbn [List.concat]. rewrite !app_nil_r. rewrite take_all by (rewrite len_app, L1; lia). all: rewrite <- ?app_assoc; try reflexivity.
Qed.

(** ** tables *)
Lemma fix_tables f : (forall q, fix_type f = Some q -> q = quality_of (fix_of f) /\ 0 <= fix_of f <= 6) /\ (forall c, nmea_status f = Some c -> c = status_of (fix_of f)) /\
  (forall c, nmea_mode_indicator f = Some c -> c = mode_of (fix_of f)).
Proof.
  unfold fix_type, nmea_status, nmea_mode_indicator, quality. rewrite pmode_fix. pose proof (fix_range f) as R. set (x := fix_of f) in *. clearbody x.
  assert (C : x = 0 \/ x = 1 \/ x = 2 \/ x = 3 \/ x = 4 \/ x = 5 \/ x = 6 \/ x = 7) by lia.
  destruct C as [->|[->|[->|[->|[->|[->|[->| ->]]]]]]]; cbn; (split; [intros q E|split; intros q E]); try discriminate E; try (apply Some_inj in E; subst q; split; [reflexivity|lia]); apply Some_inj in E; subst q; reflexivity.
Qed.
Lemma differential_ok f : 0 <= fix_of f <= 6 -> differential (quality_of (fix_of f)) f = corrected (fix_of f).
Proof.
  unfold differential. rewrite pmode_fix. set (x := fix_of f). clearbody x. intros R. assert (C : x = 0 \/ x = 1 \/ x = 2 \/ x = 3 \/ x = 4 \/ x = 5 \/ x = 6) by lia.
  destruct C as [->|[->|[->|[->|[->|[->| ->]]]]]]; reflexivity.
Qed.
Lemma q_zero x : 0 <= x <= 6 -> (quality_of x =? 0) = (x =? 0).
Proof. intros R. assert (C : x = 0 \/ x = 1 \/ x = 2 \/ x = 3 \/ x = 4 \/ x = 5 \/ x = 6) by lia. destruct C as [->|[->|[->|[->|[->|[->| ->]]]]]]; reflexivity. Qed.
Lemma q_digit x : 0 <= x <= 6 -> fmt_d 1 (quality_of x) = [48 + quality_of x].
Proof. intros R. assert (C : x = 0 \/ x = 1 \/ x = 2 \/ x = 3 \/ x = 4 \/ x = 5 \/ x = 6) by lia. destruct C as [->|[->|[->|[->|[->|[->| ->]]]]]]; reflexivity. Qed.
Lemma q_plain x : 0 <= x <= 6 -> plain_field [48 + quality_of x].
Proof. intros R. assert (C : x = 0 \/ x = 1 \/ x = 2 \/ x = 3 \/ x = 4 \/ x = 5 \/ x = 6) by lia. destruct C as [->|[->|[->|[->|[->|[->| ->]]]]]]; reflexivity. Qed.
Lemma status_plain x : plain_field [status_of x].
Proof. unfold status_of. destruct (x =? 0); reflexivity. Qed.
Lemma mode_plain x : plain_field [mode_of x].
Proof. unfold mode_of. repeat match goal with |- context [match ?x with _ => _ end] => destruct x end; reflexivity. Qed.
Lemma plain_opt b f : plain_field f -> plain_field (opt b f).
Proof. destruct b; [tauto|reflexivity]. Qed.

(** ** messages *)
Lemma ok_utc m : msg_ok m -> utc_ok (as_utc m).
Proof. unfold msg_ok, as_utc. destruct (s_body m); intros H; try (left; reflexivity). exact H. Qed.
Lemma zero_angle : ok_angle dzero.
Proof. destruct zero_range as [F R]. split; [exact F|]. apply Rabs_le. lra. Qed.
Lemma ok_pos m : msg_ok m -> ok_angle (p_lat (as_pos m)) /\ ok_angle (p_lon (as_pos m)).
Proof. unfold msg_ok, as_pos. pose proof zero_angle as ZA. destruct (s_body m); intros H; try (split; assumption). exact H. Qed.
Lemma ok_dops m : msg_ok m -> u16 (d_hdop (as_dops m)) /\ u16 (d_vdop (as_dops m)) /\ u16 (d_tdop (as_dops m)) /\ u16 (d_pdop (as_dops m)).
Proof. unfold msg_ok, as_dops. destruct (s_body m); intros H; solve [exact H | unfold u16; cbn; lia]. Qed.
Lemma ok_soln m : msg_ok m -> u16 (sm_hdop (as_soln m)) /\ u16 (sm_vdop (as_soln m)) /\ u16 (sm_age (as_soln m)).
Proof. unfold msg_ok, as_soln. destruct (s_body m); intros H; solve [exact H | unfold u16; cbn; lia]. Qed.
Lemma ok_age m : msg_ok m -> u16 (as_age m).
Proof. unfold msg_ok, as_age. destruct (s_body m); intros H; solve [exact H | unfold u16; cbn; lia]. Qed.
Lemma ok_orient m : msg_ok m -> - 2 ^ 31 <= fst (as_orient m) < 2 ^ 31.
Proof. unfold msg_ok, as_orient. destruct (s_body m); intros H; solve [exact H | cbn; lia]. Qed.

Section Builders.
Variable code_of : Z -> code.
Variable ff : Z -> Z -> dbl -> list Z.
Variable geoid : dbl -> dbl -> dbl.
Variable knots kmh course : Z -> Z -> dbl.
Variable gst_vals : Z -> list dbl.
Variable pubx_acc : Z -> dbl * dbl.
Variable heading_float mm_down : Z -> dbl.
Hypothesis ff_ok : forall w p x, Forall body_char (ff w p x) /\ commas (ff w p x) = 0.
Hypothesis gst_six : forall c, List.length (gst_vals c) = 6%nat.
Hypothesis course_ok : forall n e, dfin (course n e) = true /\ (Rabs (dR (course n e)) <= 180)%R.
Variable st : nst.
Hypothesis W : wf_state st.
Hypothesis NB : n_act st <> mBEST.
Hypothesis MO : forall id, msg_ok (n_slot st id).
Hypothesis CR : cog_range (n_last_cog st).
Notation content := (content code_of ff geoid knots kmh course gst_vals pubx_acc heading_float mm_down).

Lemma get_pos : msg_get st sPOS true = n_slot st (pos_id st). Proof. unfold msg_get, pos_id. destruct (n_act st); [contradiction| |]; reflexivity. Qed.
Lemma get_vel : msg_get st sVEL true = n_slot st (vel_id st). Proof. unfold msg_get, vel_id. destruct (n_act st); [contradiction| |]; reflexivity. Qed.
Lemma get_utc : msg_get st sUTC_TIME true = n_slot st (utc_id st). Proof. unfold msg_get, utc_id. destruct (n_act st); [contradiction| |]; reflexivity. Qed.
Lemma get_pos' : as_pos (msg_get st sPOS true) = s_pos st. Proof. unfold s_pos. rewrite get_pos. reflexivity. Qed.
Lemma get_vel' : as_vel (msg_get st sVEL true) = s_vel st. Proof. unfold s_vel. rewrite get_vel. reflexivity. Qed.
Lemma get_utc' : as_utc (msg_get st sUTC_TIME true) = s_utc st. Proof. unfold s_utc. rewrite get_utc. reflexivity. Qed.
Lemma get_hdop : (if mode_eqb (n_act st) mGNSS then d_hdop (as_dops (msg_get st sDOPS false)) else sm_hdop (as_soln (msg_get st sSOLN false))) = s_hdop st.
Proof. unfold s_hdop, msg_get. destruct (n_act st); reflexivity. Qed.
Lemma get_age : (if mode_eqb (n_act st) mGNSS then as_age (msg_get st sAGE false) else sm_age (as_soln (msg_get st sSOLN false))) = s_age st.
Proof. unfold s_age, msg_get. destruct (n_act st); reflexivity. Qed.
Lemma hdop_u16 : u16 (s_hdop st).
Proof. unfold s_hdop. destruct (ok_dops _ (MO sDOPS)) as (A & _). destruct (ok_soln _ (MO sSOLN)) as (B & _). destruct (n_act st); assumption. Qed.
Lemma age_u16 : u16 (s_age st).
Proof. unfold s_age. pose proof (ok_age _ (MO sAGE)) as A. destruct (ok_soln _ (MO sSOLN)) as (_ & _ & B). destruct (n_act st); assumption. Qed.
Lemma nsats_nonneg : 0 <= p_nsats (s_pos st).
Proof. unfold s_pos, as_pos. destruct W as [W1 _]. specialize (W1 (pos_id st)). unfold wf_slot in W1. destruct (s_body _); try (cbn; lia). unfold u8 in W1. lia. Qed.
Lemma has_vel_eq : vel_valid (s_vel st) = has_vel st. Proof. unfold vel_valid, has_vel. rewrite land7. reflexivity. Qed.

Lemma plain_ff w p x : plain_field (ff w p x). Proof. apply ff_ok. Qed.
Lemma dltb_dec x (a b : Z) : dfin x = true -> [if dltb x dzero then a else b] = [if Rlt_dec (dR x) 0 then a else b].
Proof.
  intros F. destruct (dofZ_exact 0 ltac:(lia)) as [F0 V0]. fold dzero in F0, V0. rewrite dltb_spec by assumption. rewrite V0. destruct (Rlt_bool_spec (dR x) 0), (Rlt_dec (dR x) 0); try lra; reflexivity.
Qed.
Lemma latlon_ok ll : latlon_text ff (s_pos st) = Some ll -> exists f1 f2 f3 f4, pos_fields ff (s_pos st) [f1; f2; f3; f4] /\ Forall plain_field [f1; f2; f3; f4] /\
  (if negb (fix_of (p_flags (s_pos st)) =? 0) then ll else str ",,,,") = f1 ++ [44] ++ f2 ++ [44] ++ f3 ++ [44] ++ f4 ++ [44].
Proof.
  unfold latlon_text. destruct (ok_pos _ (MO (pos_id st))) as [A1 A2]. fold (s_pos st) in A1, A2. set (p := s_pos st) in *.
  destruct (split_ok _ A1) as (d1 & m1 & E1 & S1). destruct (split_ok _ A2) as (d2 & m2 & E2 & S2). rewrite E1, E2. intros E. apply Some_inj in E. subst ll.
  unfold pos_fields. destruct (fix_of (p_flags p) =? 0); cbn [negb].
  - exists [], [], [], []. split; [reflexivity|]. split; [repeat constructor|reflexivity].
  - do 4 eexists. split; [exists d1, m1, (fmt_u 2 d1), d2, m2, (fmt_u 3 d2); split; [exact S1|]; split; [apply fmt_u_number; apply S1|]; split; [exact S2|]; split; [apply fmt_u_number; apply S2|reflexivity]|].
    split.
    + constructor; [apply plain_app; [apply (plain_number 2 d1), fmt_u_number; apply S1|apply plain_ff]|]. constructor; [destruct (Rlt_dec _ _); reflexivity|].
      constructor; [apply plain_app; [apply (plain_number 3 d2), fmt_u_number; apply S2|apply plain_ff]|]. constructor; [destruct (Rlt_dec _ _); reflexivity|constructor].
    + rewrite (dltb_dec (p_lat p)) by apply A1. rewrite (dltb_dec (p_lon p)) by apply A2. rewrite <- !app_assoc. reflexivity.
Qed.
Lemma cog_ok cog lc : calc_cog knots course st (s_vel st) = (cog, lc) -> course_value knots course st cog /\ lc = cog /\ cog_range cog.
Proof.
  unfold calc_cog. cbv zeta. unfold course_value, faster. destruct (dleb _ _).
  - intros E. assert (E1 := f_equal fst E). assert (E2 := f_equal snd E). cbn [fst snd] in E1, E2. rewrite E1 in E2. split; [|split; [congruence|]].
    + destruct (course_ok (v_n (s_vel st)) (v_e (s_vel st))) as [F B]. destruct (cog_of_ok _ F B) as [[C1 C2] C3]. rewrite <- E1. unfold cog_of in *. cbv zeta in *. split; [exact C1|]. split; [exact C2|exact C3].
    + destruct (course_ok (v_n (s_vel st)) (v_e (s_vel st))) as [F B]. destruct (cog_of_ok _ F B) as [C _]. rewrite <- E1. exact C.
  - intros E. assert (E1 := f_equal fst E). assert (E2 := f_equal snd E). cbn [fst snd] in E1, E2. destruct CR as [F B]. subst cog lc. split; [split; [exact F|split; [exact B|reflexivity]]|]. split; [reflexivity|split; [exact F|exact B]].
Qed.

Definition C (k : kind) (x : sent) : Prop := exists fs, fs <> [] /\ Forall plain_field fs /\ List.concat (snd x) = 36 :: join fs /\ content k st fs.
Lemma C_intro k max parts fs : fs <> [] -> Forall plain_field fs -> List.concat parts = 36 :: join fs -> content k st fs -> C k (max, parts).
Proof. intros. exists fs. auto. Qed.
Lemma C_one k x l : Some [x] = Some l -> C k x -> Forall (C k) l.
Proof. intros E. apply Some_inj in E. subst l. intros. constructor; [assumption|constructor]. Qed.
Lemma s_utc_ok : utc_ok (s_utc st). Proof. apply ok_utc, MO. Qed.

Ltac plains := repeat (apply Forall_cons || apply Forall_nil); try reflexivity; try apply plain_opt; try assumption; try apply plain_ff; try apply status_plain; try apply mode_plain.

Ltac strs := repeat match goal with |- context [str ?s] => let v := eval vm_compute in (str s) in change (str s) with v end.
Ltac lists := strs; cbn [List.concat join app opt]; repeat (progress (rewrite <- ?app_assoc, ?app_nil_r; cbn [app])); reflexivity.

Lemma gga_content l : send_gga ff geoid st = Some l -> Forall (C GGA) l.
Proof.
  unfold send_gga. cbv zeta. rewrite get_pos', get_utc', get_hdop, get_age. destruct (latlon_text ff _) as [ll|] eqn:EL; [|discriminate]. destruct (fix_type _) as [fx|] eqn:EF; [|discriminate].
  apply (fix_tables (p_flags (s_pos st))) in EF. destruct EF as [-> RX]. destruct (utc_texts _ s_utc_ok) as (r & U0 & U1 & U2 & U3 & _ & _). rewrite U3. clear U2.
  destruct (latlon_ok _ EL) as (f1 & f2 & f3 & f4 & P1 & P2 & P3). destruct (dop_ok ff _ hdop_u16) as (d & D1 & D2). pose proof (tenths_ok _ age_u16) as TA.
  pose proof (fmt_d_nonneg 2 _ nsats_nonneg) as NS.
  assert (LB : Z.land (n_base st) 1023 = n_base st mod 1024) by (exact (Z.land_ones (n_base st) 10 ltac:(lia))).
  assert (NBS : number 4 (n_base st mod 1024) (fmt_d 4 (Z.land (n_base st) 1023))) by (rewrite LB; apply fmt_d_nonneg; apply Z.mod_pos_bound; lia).
  intros H. apply (C_one _ _ _ H). clear H. rewrite q_zero, q_digit, differential_ok, D1 by exact RX. rewrite P3.
  set (p := s_pos st) in *. set (x := fix_of (p_flags p)) in *. set (g := geoid (p_lat p) (p_lon p)). set (n := fmt_d 2 (p_nsats p)) in *. set (b := fmt_d 4 _) in *. set (a := dmul (dofZ (s_age st)) d01) in *.
  assert (PN : plain_field n) by (apply (plain_number _ _ _ NS)). assert (PB : plain_field b) by (apply (plain_number _ _ _ NBS)).
  eapply (C_intro _ _ _ ([str "GPGGA"; time_of (s_utc st) r] ++ [f1; f2; f3; f4] ++
     [[48 + quality_of x]; opt (negb (quality_of x =? 0)) n; opt (negb (quality_of x =? 0) && negb (quality_of x =? 6)) (ff 0 1 d); opt (negb (quality_of x =? 0)) (ff 0 2 (dsub (p_height p) g)); [77]; opt (negb (quality_of x =? 0)) (ff 0 2 g); [77];
            opt (corrected x) (ff 0 1 a); opt (corrected x) b])).
  - discriminate.
  - cbn [app]. inversion P2 as [|? ? P21 P22]; subst. inversion P22 as [|? ? P23 P24]; subst. inversion P24 as [|? ? P25 P26]; subst. inversion P26; subst. plains. apply q_plain, RX.
  - rewrite q_zero by exact RX. destruct (Z.eqb_spec x 0) as [X0|X0]; cbn [negb andb opt].
    + rewrite X0. cbn [quality_of corrected Z.eqb orb Pos.eqb opt Z.add]. lists.
    + destruct (quality_of x =? 6); destruct (corrected x); cbn [negb opt]; lists.
  - cbn [NmeaFields_spec.content]. exists r, [f1; f2; f3; f4], n, d, a, b. repeat (split; [assumption|]). reflexivity.
Qed.
Ltac inv4 P := repeat (let Q := fresh in apply Forall_cons_iff in P; destruct P as [Q P]).
Ltac out H := apply Some_inj in H; apply (f_equal snd) in H; cbn [snd] in H; subst; constructor; [|constructor].
Ltac ex := cbn [NmeaFields_spec.content]; repeat (split; [assumption|]); reflexivity.

Lemma rmc_content s' l : send_rmc ff knots course st = Some (s', l) -> Forall (C RMC) l.
Proof.
  unfold send_rmc. cbv zeta. rewrite get_pos', get_utc', get_vel'. destruct (calc_cog _ _ _ _) as [cog lc] eqn:EC. apply cog_ok in EC. destruct EC as (CV & _ & _).
  destruct (latlon_text ff _) as [ll|] eqn:EL; [|discriminate]. destruct (nmea_mode_indicator _) as [md|] eqn:EM; [|discriminate]. destruct (nmea_status _) as [sta|] eqn:ES; [|discriminate].
  apply (fix_tables (p_flags (s_pos st))) in EM, ES. subst md sta. destruct (utc_texts _ s_utc_ok) as (r & U0 & U1 & U2 & U3 & U4 & _). rewrite U3, U4.
  destruct (latlon_ok _ EL) as (f1 & f2 & f3 & f4 & P1 & P2 & P3). rewrite has_vel_eq, pmode_fix. rewrite P3. intros H. out H.
  set (p := s_pos st) in *. set (x := fix_of (p_flags p)) in *. set (k := knots _ _).
  eapply (C_intro _ _ _ ([str "GPRMC"; time_of (s_utc st) r; [status_of x]] ++ [f1; f2; f3; f4] ++
           [opt (has_vel st) (ff 0 2 k); opt (has_vel st && faster knots st (n_cog_thd st)) (ff 0 1 cog); date_of (s_utc st) r; []; []; [mode_of x]])).
  - discriminate.
  - cbn [app]. inv4 P2. plains.
  - unfold faster. fold k. destruct (has_vel st); [destruct (dleb _ _)|]; cbn [andb opt]; lists.
  - exists r, [f1; f2; f3; f4], cog. ex.
Qed.
Lemma vtg_content s' l : send_vtg ff knots kmh course st = Some (s', l) -> Forall (C VTG) l.
Proof.
  unfold send_vtg. cbv zeta. rewrite get_pos', get_vel'. destruct (calc_cog _ _ _ _) as [cog lc] eqn:EC. apply cog_ok in EC. destruct EC as (CV & _ & _).
  destruct (nmea_mode_indicator _) as [md|] eqn:EM; [|discriminate]. apply (fix_tables (p_flags (s_pos st))) in EM. subst md. rewrite has_vel_eq. intros H. out H.
  set (p := s_pos st) in *. set (x := fix_of (p_flags p)) in *. set (k := knots _ _). set (kh := kmh _ _).
  eapply (C_intro _ _ _ [str "GPVTG"; opt (has_vel st && faster knots st (n_cog_thd st)) (ff 0 1 cog); [84]; []; [77]; opt (has_vel st) (ff 0 2 k); [78]; opt (has_vel st) (ff 0 2 kh); [75]; [mode_of x]]).
  - discriminate.
  - plains.
  - unfold faster. fold k. destruct (has_vel st); [destruct (dleb _ _)|]; cbn [andb opt]; lists.
  - exists cog. ex.
Qed.
Lemma hdt_content l : send_hdt ff st heading_float = Some l -> Forall (C HDT) l.
Proof.
  unfold send_hdt. cbv zeta. destruct (as_hdg (msg_get st sHDG false)) as [h f] eqn:E. rewrite pmode_fix. intros H. apply (C_one _ _ _ H). clear H.
  eapply (C_intro _ _ _ [str "GPHDT"; opt (fix_of f =? 4) (ff 0 2 (ddiv (heading_float h) (dofZ 1000))); [84]]).
  - discriminate.
  - plains.
  - unfold POSITION_MODE_FIXED. destruct (fix_of f =? 4); cbn [opt]; lists.
  - cbn [NmeaFields_spec.content]. unfold msg_get in E. rewrite E. reflexivity.
Qed.
Lemma ths_content l : send_ths ff st = Some l -> Forall (C THS) l.
Proof.
  unfold send_ths. cbv zeta. destruct (as_orient (msg_get st sORIENT false)) as [yaw f] eqn:E. unfold msg_get in E. rewrite get_pos', !pmode_fix. intros H. apply (C_one _ _ _ H). clear H.
  pose proof (ok_orient _ (MO sORIENT)) as OY. rewrite E in OY. cbn [fst] in OY. rewrite land7. set (x := fix_of (p_flags (s_pos st))) in *.
  eapply (C_intro _ _ _ (str "GPTHS" :: (if (x =? 0) || (f mod 8 =? 0) then [[]; [86]] else [ff 0 2 (yaw_deg yaw); [if x =? 5 then 69 else 65]]))).
  - discriminate.
  - destruct (_ || _); plains. destruct (x =? 5); reflexivity.
  - unfold POSITION_MODE_DEAD_RECKONING. destruct (_ || _); lists.
  - cbn [NmeaFields_spec.content]. rewrite E. exists (yaw_deg yaw). split; [apply yaw_ok; exact OY|reflexivity].
Qed.
Lemma gll_content l : send_gll ff st = Some l -> Forall (C GLL) l.
Proof.
  unfold send_gll. cbv zeta. rewrite get_pos', get_utc'. destruct (latlon_text ff _) as [ll|] eqn:EL; [|discriminate]. destruct (nmea_status _) as [sta|] eqn:ES; [|discriminate].
  destruct (nmea_mode_indicator _) as [md|] eqn:EM; [|discriminate]. apply (fix_tables (p_flags (s_pos st))) in EM, ES. subst md sta. destruct (utc_texts _ s_utc_ok) as (r & U0 & U1 & U2 & U3 & _). rewrite U3.
  destruct (latlon_ok _ EL) as (f1 & f2 & f3 & f4 & P1 & P2 & P3). rewrite pmode_fix, P3. intros H. apply (C_one _ _ _ H). clear H. set (x := fix_of _) in *.
  eapply (C_intro _ _ _ ([str "GPGLL"] ++ [f1; f2; f3; f4] ++ [time_of (s_utc st) r; [status_of x]; [mode_of x]])).
  - discriminate.
  - cbn [app]. inv4 P2. plains.
  - lists.
  - exists r, [f1; f2; f3; f4]. ex.
Qed.
Lemma zda_content l : send_zda st = Some l -> Forall (C ZDA) l.
Proof.
  unfold send_zda. rewrite get_utc'. destruct (utc_texts _ s_utc_ok) as (r & U0 & U1 & _ & _ & _ & y & Y1 & Y2 & Y3). rewrite Y3. intros H. apply (C_one _ _ _ H). clear H.
  eapply (C_intro _ _ _ ([str "GPZDA"; time_of (s_utc st) r] ++ (if u_flags (s_utc st) =? 0 then [[]; []; []] else [dd (u_day r); dd (u_month r); y]) ++ [[]; []])).
  - discriminate.
  - apply Forall_app. split; [plains|]. apply Forall_app. split; [exact Y2|plains].
  - destruct (u_flags (s_utc st) =? 0); lists.
  - exists r, y. ex.
Qed.
Lemma gst_content l : send_gst code_of ff gst_vals st = Some l -> Forall (C GST) l.
Proof.
  unfold send_gst. cbv zeta. rewrite get_pos', get_utc'. destruct (fix_type _) as [fx|] eqn:EF; [|discriminate]. apply (fix_tables (p_flags (s_pos st))) in EF. destruct EF as [-> RX].
  destruct (utc_texts _ s_utc_ok) as (r & U0 & U1 & U2 & U3 & _). rewrite U3. destruct (talkers_used code_of (n_sids st)) as [ts|] eqn:ET; [|discriminate]. rewrite q_zero by exact RX.
  set (p := s_pos st) in *. set (x := fix_of (p_flags p)) in *.
  assert (TS : forall t, In t ts -> 0 <= t < 4).
  { intros t I. unfold talkers_used in ET. destruct (forallb _ _); [|discriminate ET]. apply Some_inj in ET. subst ts. apply filter_In in I. destruct I as [I _]. cbn [In] in I. lia. }
  assert (TN : len ts = 0 -> forall g t id, In g (n_sids st) -> ~ sat_of code_of t id g).
  { intros L g t id I S. unfold talkers_used in ET. destruct (forallb _ _); [|discriminate ET]. apply Some_inj in ET.
    assert (T4 : 0 <= t < 4). { destruct S as (c & _ & TO & _). destruct c; cbn [talker_of] in TO; try contradiction; lia. }
    assert (TG : talker code_of g = Some t). { apply talker_sat; [lia|]. pose proof (sat_id _ _ _ _ S) as ID. rewrite <- ID. exact S. }
    assert (J : In t ts). { subst ts. apply filter_In. split; [cbn [In]; lia|]. apply existsb_exists. exists g. split; [exact I|]. rewrite TG. apply Z.eqb_refl. }
    destruct ts; [destruct J|]. rewrite len_cons in L. pose proof (len_nonneg ts). lia. }
  destruct ((len ts =? 0) || (x =? 0)) eqn:EB; intros H; apply (C_one _ _ _ H); clear H.
  - eapply (C_intro _ _ _ [str "GPGST"; time_of (s_utc st) r; []; []; []; []; []; []; []]).
    + discriminate.
    + plains.
    + lists.
    + cbn [NmeaFields_spec.content]. exists r, (str "GP"). split; [exact U0|]. split; [left; reflexivity|]. left. split; [|reflexivity]. destruct (Z.eqb_spec x 0); [left; assumption|]. right. apply TN. destruct (Z.eqb_spec (len ts) 0); [assumption|discriminate EB].
  - apply orb_false_iff in EB. destruct EB as [EB1 EB2]. apply Z.eqb_neq in EB1, EB2.
    pose proof (gst_six (p_cov p)) as SX. destruct (gst_vals (p_cov p)) as [|a [|b [|c [|d [|e [|f [|]]]]]]] eqn:EV; try discriminate.
    set (name := if 1 <? len ts then str "GN" else talker_str (znth 0 0 ts)).
    assert (NM : name = str "GP" \/ name = str "GL" \/ name = str "GA" \/ name = str "GB" \/ name = str "GN").
    { unfold name. destruct (1 <? len ts); [tauto|]. assert (I : In (znth 0 0 ts) ts). { destruct ts as [|t ts]; [contradiction EB1; reflexivity|]. left. reflexivity. }
      apply TS in I. set (t := znth 0 0 ts) in *. clearbody t. assert (CC : t = 0 \/ t = 1 \/ t = 2 \/ t = 3) by lia. destruct CC as [->|[->|[->| ->]]]; cbn [talker_str]; tauto. }
    assert (PN : plain_field name) by (destruct NM as [->|[->|[->|[->| ->]]]]; reflexivity).
    eapply (C_intro _ _ _ ([name ++ str "GST"; time_of (s_utc st) r; []] ++ List.map (fun '(i, x) => ff 0 (if i =? 2 then 1 else 6) x) (combine [0; 1; 2; 3; 4; 5] [a; b; c; d; e; f]))).
    + discriminate.
    + cbn [app List.map combine]. plains. apply plain_app; [exact PN|reflexivity].
    + cbn [List.map combine Z.eqb Pos.eqb]. unfold name. destruct (1 <? len ts); lists.
    + cbn [NmeaFields_spec.content]. exists r, name. split; [exact U0|]. split; [exact NM|]. right. split; [exact EB2|]. fold p. rewrite EV. reflexivity.
Qed.
Lemma pubx_content s' l : send_pubx ff knots kmh course pubx_acc st mm_down = Some (s', l) -> Forall (C PUBX) l.
Proof.
  unfold send_pubx. cbv zeta. rewrite get_pos', get_utc', get_vel'. destruct (calc_cog _ _ _ _) as [cog lc] eqn:EC. apply cog_ok in EC. destruct EC as (CV & _ & _).
  destruct (latlon_text ff _) as [ll|] eqn:EL; [|discriminate]. destruct (fix_type _) as [fx|] eqn:EF; [|discriminate]. apply (fix_tables (p_flags (s_pos st))) in EF. destruct EF as [-> RX].
  destruct (utc_texts _ s_utc_ok) as (r & U0 & U1 & U2 & U3 & _). rewrite U3. destruct (latlon_ok _ EL) as (f1 & f2 & f3 & f4 & P1 & P2 & P3).
  rewrite has_vel_eq, get_age. rewrite differential_ok, q_zero by exact RX. pose proof (tenths_ok _ age_u16) as TA.
  destruct (dop_ok ff _ hdop_u16) as (h & H1 & H2). assert (VU : u16 (s_vdop st)). { unfold s_vdop. destruct (ok_dops _ (MO sDOPS)) as (_ & A & _). destruct (ok_soln _ (MO sSOLN)) as (_ & B & _). destruct (n_act st); assumption. }
  destruct (dop_ok ff _ VU) as (v & V1 & V2). destruct (ok_dops _ (MO sDOPS)) as (_ & _ & TU & _). destruct (dop_ok ff _ TU) as (t & T1 & T2).
  pose proof (fmt_d_nonneg 0 _ nsats_nonneg) as NS. intros H. out H.
  set (p := s_pos st) in *. set (x := fix_of (p_flags p)) in *. set (k := knots _ _). set (kh := kmh _ _). set (n := fmt_d 0 (p_nsats p)) in *. set (a := dmul (dofZ (s_age st)) d01) in *.
  set (dv := mm_down _). set (a1 := fst (pubx_acc _)). set (a2 := snd (pubx_acc _)). set (q := quality_of x).
  assert (PN : plain_field n) by (apply (plain_number _ _ _ NS)).
  assert (DP : (if (q =? 6) || (x =? 0) then str ",,," else if mode_eqb (n_act st) mGNSS then dop_text ff (d_hdop (as_dops (msg_get st sDOPS false))) ++ str "," ++ dop_text ff (d_vdop (as_dops (msg_get st sDOPS false))) ++ str "," ++ dop_text ff (d_tdop (as_dops (msg_get st sDOPS false))) ++ str ","
       else dop_text ff (sm_hdop (as_soln (msg_get st sSOLN false))) ++ str "," ++ dop_text ff (sm_vdop (as_soln (msg_get st sSOLN false))) ++ str ",,") =
      (let dops := negb (x =? 0) && negb (q =? 6) in opt dops (ff 0 1 h) ++ [44] ++ opt dops (ff 0 1 v) ++ [44] ++ opt (dops && mode_eqb (n_act st) mGNSS) (ff 0 1 t) ++ [44])).
  { cbv zeta. rewrite <- H1, <- V1, <- T1. unfold s_hdop, s_vdop, msg_get. destruct (n_act st); [contradiction| |]; destruct (q =? 6), (x =? 0); cbn [mode_eqb orb andb negb]; lists. }
  rewrite DP. clear DP. cbv zeta.
  assert (NV : nav_stat q (p_flags p) = match x with 0 => str "NF" | 5 => str "DR" | 1 | 6 => str "G3" | _ => str "D3" end /\ plain_field (nav_stat q (p_flags p))).
  { unfold nav_stat. assert (DF : differential q (p_flags p) = corrected x) by (apply differential_ok; exact RX). rewrite DF. unfold q. assert (CC : x = 0 \/ x = 1 \/ x = 2 \/ x = 3 \/ x = 4 \/ x = 5 \/ x = 6) by lia. destruct CC as [->|[->|[->|[->|[->|[->| ->]]]]]]; split; reflexivity. }
  destruct NV as [NV PV].
  assert (LL : (if negb (x =? 0) then ll ++ ff 0 2 (p_height p) ++ str "," else str ",,,,,") = f1 ++ [44] ++ f2 ++ [44] ++ f3 ++ [44] ++ f4 ++ [44] ++ opt (negb (x =? 0)) (ff 0 2 (p_height p)) ++ [44]).
  { transitivity ((if negb (x =? 0) then ll else str ",,,,") ++ opt (negb (x =? 0)) (ff 0 2 (p_height p)) ++ [44]); [destruct (negb (x =? 0)); lists|rewrite P3; lists]. }
  rewrite LL. clear LL.
  assert (QL : fmt_d 0 (if q =? 6 then 1 else 0) = [if q =? 6 then 49 else 48]) by (destruct (q =? 6); reflexivity). rewrite QL.
  eapply (C_intro _ _ _ ([str "PUBX"; str "00"; time_of (s_utc st) r] ++ [f1; f2; f3; f4] ++
           [opt (negb (q =? 0)) (ff 0 2 (p_height p)); (match x with 0 => str "NF" | 5 => str "DR" | 1 | 6 => str "G3" | _ => str "D3" end);
            opt (negb (q =? 0)) (ff 0 1 a1); opt (negb (q =? 0)) (ff 0 1 a2); opt (has_vel st) (ff 0 2 kh);
            opt (has_vel st && faster_strictly knots st (n_cog_thd st)) (ff 0 1 cog); opt (has_vel st) (ff 0 2 dv); opt (corrected x) (ff 0 1 a);
            opt (negb (q =? 0) && negb (q =? 6)) (ff 0 1 h); opt (negb (q =? 0) && negb (q =? 6)) (ff 0 1 v); opt (negb (q =? 0) && negb (q =? 6) && mode_eqb (n_act st) mGNSS) (ff 0 1 t); n; [48]; [if q =? 6 then 49 else 48]])).
  - discriminate.
  - cbn [app]. inv4 P2. plains; [rewrite <- NV; exact PV|destruct (q =? 6); reflexivity].
  - rewrite <- NV. set (nv := nav_stat q (p_flags p)) in *. assert (QZ : (q =? 0) = (x =? 0)) by (apply q_zero; exact RX). rewrite QZ. unfold faster_strictly. fold k.
    destruct (has_vel st); [destruct (dltb _ _)|]; destruct (corrected x); destruct (x =? 0); cbn [andb negb opt]; lists.
  - exists r, [f1; f2; f3; f4], cog, a, h, v, t, n. ex.
Qed.
Lemma all_content k s' l : send code_of ff geoid knots kmh course gst_vals pubx_acc heading_float mm_down k st = Some (s', l) -> k = GSA \/ k = GSV \/ Forall (C k) l.
Proof.
  intros H. assert (PU : forall o, pure st o = Some (s', l) -> o = Some l) by (intros [x|] E; cbn [pure] in E; [apply Some_inj in E; apply (f_equal snd) in E; cbn [snd] in E; congruence|discriminate E]).
  unfold send in H. destruct k; try (left; reflexivity); right; try (left; reflexivity); right.
  - apply gga_content, PU, H.
  - eapply rmc_content, H.
  - eapply vtg_content, H.
  - apply hdt_content, PU, H.
  - apply gll_content, PU, H.
  - apply zda_content, PU, H.
  - apply gst_content, PU, H.
  - eapply pubx_content, H.
  - apply ths_content, PU, H.
Qed.
Lemma cog_kept k s' l : send code_of ff geoid knots kmh course gst_vals pubx_acc heading_float mm_down k st = Some (s', l) -> cog_range (n_last_cog s').
Proof.
  intros H. assert (PU : forall o, pure st o = Some (s', l) -> s' = st) by (intros [x|] E; cbn [pure] in E; [apply Some_inj in E; apply (f_equal fst) in E; cbn [fst] in E; congruence|discriminate E]).
  unfold send in H. destruct k; try (apply PU in H; subst s'; exact CR).
  - unfold send_rmc in H. cbv zeta in H. rewrite get_vel' in H. destruct (calc_cog _ _ _ _) as [cog lc] eqn:EC. apply cog_ok in EC. destruct EC as (_ & -> & R).
    repeat match type of H with match ?x with Some _ => _ | None => _ end = _ => destruct x; [|discriminate H] end. apply Some_inj in H. apply (f_equal fst) in H. cbn [fst] in H. subst s'. exact R.
  - unfold send_vtg in H. cbv zeta in H. rewrite get_vel' in H. destruct (calc_cog _ _ _ _) as [cog lc] eqn:EC. apply cog_ok in EC. destruct EC as (_ & -> & R).
    repeat match type of H with match ?x with Some _ => _ | None => _ end = _ => destruct x; [|discriminate H] end. apply Some_inj in H. apply (f_equal fst) in H. cbn [fst] in H. subst s'. exact R.
  - unfold send_pubx in H. cbv zeta in H. rewrite get_vel' in H. destruct (calc_cog _ _ _ _) as [cog lc] eqn:EC. apply cog_ok in EC. destruct EC as (_ & -> & R).
    repeat match type of H with match ?x with Some _ => _ | None => _ end = _ => destruct x; [|discriminate H] end. apply Some_inj in H. apply (f_equal fst) in H. cbn [fst] in H. subst s'. exact R.
Qed.
End Builders.
