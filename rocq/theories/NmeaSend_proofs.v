(** Lemmas about the texts of the NMEA sentences. *)
From Coq Require Import String.
From Flocq Require Import Core.Zaux IEEE754.Binary.
From Verif Require Import Base Double_model Signals_model RtcmMsm_model RtcmLegacy_model Sbp2Msm_model NmeaText_model NmeaText_proofs NmeaTime_model NmeaTime_spec NmeaTime_proofs Nmea_model Nmea_spec.
Open Scope Z_scope.
Open Scope list_scope.

Definition body_charb (c : Z) : bool := (32 <=? c) && (c <? 127) && negb (c =? 36) && negb (c =? 42).
Lemma body_charP c : body_charb c = true -> body_char c. Proof. unfold body_charb, body_char. lia. Qed.
Lemma commas_app a b : commas (a ++ b) = commas a + commas b.
Proof. induction a as [|c a IH]; cbn [app commas]; [lia|]. rewrite IH. lia. Qed.
Lemma commas_nonneg l : 0 <= commas l. Proof. induction l as [|c l IH]; cbn [commas]; [lia|]. destruct (c =? 44); lia. Qed.

Lemma Some_inj {A} (a b : A) : Some a = Some b -> a = b. Proof. congruence. Qed.
Section T.
(** under [S] the commas are counted too *)
Variable S : Prop.
Definition T (n : Z) (l : list Z) : Prop := Forall body_char l /\ (S -> commas l = n).
Lemma T_nil : T 0 []. Proof. split; [constructor|reflexivity]. Qed.
Lemma T_app n m a b : T n a -> T m b -> T (n + m) (a ++ b).
Proof. intros [A1 A2] [B1 B2]. split; [apply Forall_app; auto|]. intros s. rewrite commas_app, (A2 s), (B2 s). reflexivity. Qed.
Lemma T_eq n m l : T n l -> n = m -> T m l. Proof. intros H <-. exact H. Qed.
Lemma T_str s : forallb body_charb (str s) = true -> T (commas (str s)) (str s).
Proof. intros F. split; [|reflexivity]. apply Forall_forall. intros c I. rewrite forallb_forall in F. apply body_charP. apply F. exact I. Qed.
Lemma T_chr c : body_charb c = true -> (c =? 44) = false -> T 0 [c].
Proof. intros B C. split; [constructor; [apply body_charP; exact B|constructor]|]. intros _. cbn [commas]. rewrite C. reflexivity. Qed.
Definition digits (l : list Z) : Prop := Forall (fun c => 48 <= c <= 57) l.
Lemma T_digits l : digits l -> T 0 l.
Proof.
  induction 1 as [|c l H F IH]; [apply T_nil|]. change (c :: l) with ([c] ++ l). replace 0 with (0 + 0) by reflexivity. apply T_app; [|exact IH].
  apply T_chr; unfold body_charb; lia.
Qed.
Lemma dec_fuel_digits f : forall n, 0 <= n -> digits (dec_fuel f n).
Proof.
  induction f as [|f IH]; intros n N; cbn [dec_fuel]; [constructor|]. destruct (Z.ltb_spec n 10).
  - constructor; [lia|constructor].
  - apply Forall_app. split; [apply IH; apply Z.div_pos; lia|]. constructor; [|constructor]. pose proof (Z.mod_pos_bound n 10). lia.
Qed.
Lemma dec_digits n : 0 <= n -> digits (dec n). Proof. apply dec_fuel_digits. Qed.
Lemma pad_digits w l : digits l -> digits (pad w l).
Proof. intros H. unfold pad. apply Forall_app. split; [|exact H]. apply Forall_forall. intros c I. apply repeat_spec in I. lia. Qed.
Lemma T_u w n : 0 <= n -> T 0 (fmt_u w n). Proof. intros. apply T_digits, pad_digits, dec_digits. assumption. Qed.
Lemma T_d w n : T 0 (fmt_d w n).
Proof.
  unfold fmt_d. destruct (Z.ltb_spec n 0).
  - change (45 :: pad (w - 1) (dec (- n))) with ([45] ++ pad (w - 1) (dec (- n))). apply (T_app 0 0); [apply T_chr; reflexivity|]. apply T_digits, pad_digits, dec_digits. lia.
  - apply T_digits, pad_digits, dec_digits. lia.
Qed.
Lemma T_take n l : Forall body_char l -> Forall body_char (take n l).
Proof. intros F. unfold take. apply Forall_forall. intros c I. rewrite Forall_forall in F. apply F. rewrite <- (firstn_skipn (Z.to_nat n) l). apply in_or_app. left. exact I. Qed.

(** ** the UTC texts *)
Lemma round_cs_range ns z : round_cs ns = Some z -> 0 <= z < 65536.
Proof. unfold round_cs. destruct (dround _) as [x|]; [|discriminate]. destruct ((0 <=? x) && (x <? 65536)) eqn:E; [|discriminate]. intros [= <-]. lia. Qed.
Lemma round_utc_wf u r : wf_utc u -> round_utc_time u = Some r -> 0 <= u_year r /\ 0 <= u_month r /\ 0 <= u_day r /\ 0 <= u_hours r /\ 0 <= u_minutes r /\ 0 <= u_seconds r /\ 0 <= u_ns r.
Proof.
  unfold wf_utc, u8. intros (W1 & W2 & W3 & W4 & W5 & W6 & W7). unfold round_utc_time. destruct (round_cs (u_ns u)) as [cs|] eqn:C; [|discriminate]. apply round_cs_range in C.
  assert (M : forall x m, 0 < m -> 0 <= x mod m) by (intros; apply Z.mod_pos_bound; lia). cbv zeta.
  repeat match goal with |- (if negb ?b then _ else _) = _ -> _ => destruct b; cbn [negb] end; intros [= <-]; cbn [u_year u_month u_day u_hours u_minutes u_seconds u_ns];
    repeat split; try lia; apply M; lia.
Qed.
Lemma len_str s : len (str s) = Z.of_nat (String.length s).
Proof. unfold str, len. rewrite map_length. f_equal. induction s as [|a s IH]; [reflexivity|]. cbn. rewrite IH. reflexivity. Qed.
Lemma len_dec_fuel f n k : 0 <= n < 10 ^ Z.of_nat k -> (0 < k)%nat -> len (dec_fuel f n) <= Z.of_nat k.
Proof.
  revert n k. induction f as [|f IH]; intros n k N K; cbn [dec_fuel]; [rewrite (@len_nil Z); lia|]. destruct (Z.ltb_spec n 10); [rewrite len_cons, (@len_nil Z); lia|].
  destruct k as [|[|k]]; [lia|cbn in N; lia|]. rewrite len_app, len_cons, (@len_nil Z).
  specialize (IH (n / 10) (Datatypes.S k)). rewrite Nat2Z.inj_succ in N. rewrite Z.pow_succ_r in N by lia.
  assert (0 <= n / 10 < 10 ^ Z.of_nat (Datatypes.S k)) by (split; [apply Z.div_pos; lia|apply Z.div_lt_upper_bound; lia]). specialize (IH H0 ltac:(lia)). lia.
Qed.
Lemma len_pad w l : len (pad w l) = Z.max w (len l).
Proof. unfold pad. rewrite len_app. unfold len at 1. rewrite repeat_length. pose proof (len_nonneg l). lia. Qed.
Lemma len_fmt_u w n k : 0 <= n < 10 ^ Z.of_nat k -> (0 < k)%nat -> Z.of_nat k <= w -> len (fmt_u w n) = w.
Proof. intros N K W. unfold fmt_u. rewrite len_pad. pose proof (len_dec_fuel (Z.to_nat (Z.log2 (Z.max 1 n)) + 1) n k N K). unfold dec. lia. Qed.
Lemma len_fmt_u_le w n k : 0 <= n < 10 ^ Z.of_nat k -> (0 < k)%nat -> len (fmt_u w n) <= Z.max w (Z.of_nat k).
Proof. intros N K. unfold fmt_u. rewrite len_pad. pose proof (len_dec_fuel (Z.to_nat (Z.log2 (Z.max 1 n)) + 1) n k N K). unfold dec. lia. Qed.

Definition utc_commas (time date trunc : bool) : Z := (if time then 1 else 0) + (if date then if trunc then 1 else 3 else 0).
Lemma T_pieces time date trunc u ps : wf_utc u -> utc_pieces time date trunc u = Some ps -> T (utc_commas time date trunc) (List.concat ps).
Proof.
  intros W E.
  revert E. unfold utc_pieces. destruct (Z.eqb_spec (u_flags u) 0) as [F0|F0].
    - intros [= <-]. split; [destruct time, date, trunc; repeat (apply Forall_cons; [apply body_charP; reflexivity|]); apply Forall_nil|]. intros _. destruct time, date, trunc; reflexivity.
    - destruct (round_utc_time u) as [r|] eqn:R; [|discriminate]. intros E. apply Some_inj in E. subst ps. destruct (round_utc_wf u r W R) as (R1 & R2 & R3 & R4 & R5 & R6 & R7). unfold utc_commas.
      rewrite concat_app. assert (0 <= u_year r mod 100) by (apply Z.mod_pos_bound; lia). apply T_app.
      + destruct time; cbn [List.concat]; [|apply T_nil]. rewrite app_nil_r. change 1 with (0 + (0 + (0 + (0 + (0 + 1))))).
        repeat (apply T_app; [first [apply T_u; assumption | apply (T_str "."); reflexivity]|]). apply (T_str ","); reflexivity.
      + destruct date; cbn [List.concat]; [|apply T_nil]. destruct trunc; cbn [List.concat]; rewrite app_nil_r.
        * change 1 with (0 + (0 + (0 + 1))). repeat (apply T_app; [first [apply T_u; assumption | apply (T_str "."); reflexivity]|]). apply (T_str ","); reflexivity.
        * change 3 with (0 + (1 + (0 + (1 + (0 + 1))))). repeat (apply T_app; [first [apply T_u; assumption | apply (T_str ","); reflexivity]|]). apply (T_str ","); reflexivity.
Qed.
Lemma T_utc time date trunc u txt : wf_utc u -> (S -> utc_ok u) -> utc_text time date trunc u = Some txt -> T (utc_commas time date trunc) txt.
Proof.
  intros W OK. unfold utc_text. destruct (utc_pieces time date trunc u) as [ps|] eqn:E; [|discriminate]. intros [= <-].
  assert (TP : T (utc_commas time date trunc) (List.concat ps)) by exact (T_pieces _ _ _ _ _ W E).
  split; [apply T_take; apply TP|]. intros s. rewrite take_all; [apply TP; exact s|]. clear TP.
  revert E. unfold utc_pieces. destruct (Z.eqb_spec (u_flags u) 0) as [F0|F0].
  - intros [= <-]. destruct time, date, trunc; vm_compute; discriminate.
  - destruct (OK s) as [|[V N]]; [contradiction|]. destruct (round_utc_spec u V N) as (r & R & _ & Y & M & D & H & MI & SE & CS & _). rewrite R. intros E. apply Some_inj in E. subst ps.
    pose proof (dim_range (u_year r) (u_month r) M). rewrite concat_app, len_app.
    assert (Y100 : 0 <= u_year r mod 100 < 100) by (apply Z.mod_pos_bound; lia).
    assert (P2 : forall x, 0 <= x < 100 -> len (fmt_u 2 x) = 2) by (intros; apply (len_fmt_u 2 x 2); lia).
    assert (P5 : len (fmt_u 0 (u_year r)) <= 5) by (pose proof (len_fmt_u_le 0 (u_year r) 5); lia).
    assert (S1 : len (str ",") = 1) by reflexivity. assert (S2 : len (str ".") = 1) by reflexivity.
    assert (A : len (List.concat (if time then [fmt_u 2 (u_hours r) ++ fmt_u 2 (u_minutes r) ++ fmt_u 2 (u_seconds r) ++ str "." ++ fmt_u 2 (u_ns r) ++ str ","] else [])) <= 10).
    { destruct time; [|vm_compute; discriminate]. cbn [List.concat]. rewrite app_nil_r, !len_app, !P2, S1, S2 by lia. lia. }
    match goal with |- _ + len ?x <= _ => assert (B : len x <= 12) end.
    { destruct date; [|vm_compute; discriminate]. destruct trunc; cbn [List.concat]; rewrite app_nil_r, !len_app, !P2, !S1 by lia; lia. }
    lia.
Qed.
End T.

Lemma wf_get s id m : wf_state s -> wf_slot (msg_get s id m). Proof. intros [W _]. apply W. Qed.
Lemma wf_as_utc x : wf_slot x -> wf_utc (as_utc x).
Proof. unfold wf_slot, as_utc. destruct (s_body x); intros W; try exact W; unfold wf_utc, u8; cbn; lia. Qed.
Lemma dtrunc_abs x z : dtrunc (dabs x) = Some z -> 0 <= z.
Proof.
  destruct x as [b|b|b pl H|b m e H]; cbn [dabs dtrunc dint]; try discriminate; intros E; apply Some_inj in E; rewrite <- E; [lia|].
  unfold cond_Zopp, ztr. destruct (Z.leb_spec 0 e); [apply Z.mul_nonneg_nonneg; [lia|apply Z.pow_nonneg; lia]|]. apply Z.quot_pos; [lia|].
  apply Z.pow_pos_nonneg; lia.
Qed.
Lemma split_angle_nonneg x d m : split_angle x = Some (d, m) -> 0 <= d.
Proof.
  unfold split_angle. destruct (droundd _); [|discriminate]. cbv zeta. destruct (dleb _ _); [|discriminate]. destruct (dtrunc _) eqn:E; [|discriminate].
  apply dtrunc_abs in E. intros H. apply Some_inj in H. apply (f_equal fst) in H. cbn [fst] in H. lia.
Qed.

Section Builders.
Variable code_of : Z -> code.
Variable ff : Z -> Z -> dbl -> list Z.
Variable geoid : dbl -> dbl -> dbl.
Variable knots kmh course : Z -> Z -> dbl.
Variable gst_vals : Z -> list dbl.
Variable pubx_acc : Z -> dbl * dbl.
Variable heading_float mm_down : Z -> dbl.
Hypothesis ff_ok : forall w p x, Forall body_char (ff w p x) /\ commas (ff w p x) = 0.
Hypothesis gst_six : forall c, List.length (gst_vals c) = 6%nat.
Variable st : nst.
Hypothesis W : wf_state st.
Notation T := (T (utc_slots_ok st)).
Lemma T_ff w p x : T 0 (ff w p x). Proof. split; [apply ff_ok|]. intros _. apply ff_ok. Qed.
Lemma T_utcs a b c id m txt : utc_text a b c (as_utc (msg_get st id m)) = Some txt -> T (utc_commas a b c) txt.
Proof. apply T_utc; [apply wf_as_utc, wf_get, W|]. intros H. apply H. Qed.
Lemma T_latlon p txt : latlon_text ff p = Some txt -> T 4 txt.
Proof.
  unfold latlon_text. destruct (split_angle (p_lat p)) as [[d1 m1]|] eqn:E1; [|discriminate]. destruct (split_angle (p_lon p)) as [[d2 m2]|] eqn:E2; [|discriminate].
  apply split_angle_nonneg in E1, E2. intros H. apply Some_inj in H. subst txt.
  change 4 with (0 + (0 + (1 + (0 + (1 + (0 + (0 + (1 + (0 + 1))))))))).
  repeat (apply T_app; [first [apply T_u; assumption | apply T_ff | apply (T_str _ ","); reflexivity | destruct (dltb _ _); apply T_chr; reflexivity]|]). apply (T_str _ ","); reflexivity.
Qed.
Lemma T_dop d : T 0 (dop_text ff d). Proof. unfold dop_text. destruct (droundd _); [apply T_ff|apply T_nil]. Qed.
Lemma T_dop2 d : T 0 (dop_text_gsa ff d). Proof. unfold dop_text_gsa. destruct (droundd _); [apply T_ff|apply T_nil]. Qed.
Lemma T_nsats p : 0 <= p_nsats (as_pos (msg_get st p true)).
Proof. pose proof (wf_get st p true W) as H. unfold wf_slot, as_pos in *. destruct (s_body _); cbn; try lia. unfold u8 in H. lia. Qed.
(** a part: choose the branches, then piece by piece *)
Ltac piece := first [apply T_ff | apply T_d | apply T_dop | apply T_dop2 | eassumption | apply T_str; reflexivity | apply T_chr; reflexivity | apply T_nil |
                     apply T_u; first [lia | assumption | apply Z.land_nonneg; lia]].
Lemma T_hd n m c l : T n [c] -> T m l -> T (n + m) (c :: l). Proof. apply (T_app (utc_slots_ok st) n m [c] l). Qed.
Ltac pieces := first [piece | eapply T_app; [pieces|pieces] | eapply T_hd; [pieces|pieces]].
Ltac branches := repeat match goal with |- context [if ?b then _ else _] => destruct b end.
Ltac part := branches; (eapply T_eq; [pieces|reflexivity]).
Lemma T_concat_cons n m p ps : T n p -> T m (List.concat ps) -> T (n + m) (List.concat (p :: ps)).
Proof. intros. cbn [List.concat]. apply T_app; assumption. Qed.
Lemma T_concat_nil : T 0 (List.concat []). Proof. apply T_nil. Qed.

Definition G (P : Z -> Prop) (x : sent) : Prop := 2 <= fst x /\ exists body, List.concat (snd x) = 36 :: body /\ Forall body_char body /\ (utc_slots_ok st -> P (commas body)).
Lemma G_intro (P : Z -> Prop) max p0 ps n : 2 <= max -> T n (p0 ++ List.concat ps) -> P n -> G P (max, (36 :: p0) :: ps).
Proof. intros M [T1 T2] H. split; [exact M|]. exists (p0 ++ List.concat ps). split; [reflexivity|]. split; [exact T1|]. intros s. rewrite (T2 s). exact H. Qed.
Lemma G_one P x l : Some [x] = Some l -> G P x -> Forall (G P) l.
Proof. intros E. apply Some_inj in E. subst l. intros. constructor; [assumption|constructor]. Qed.

Lemma gga_good l : send_gga ff geoid st = Some l -> Forall (G (field_commas GGA)) l.
Proof.
  unfold send_gga. cbv zeta. destruct (latlon_text ff _) as [ll|] eqn:EL; [|discriminate]. destruct (fix_type _) as [fx|]; [|discriminate].
  destruct (utc_text true false false _) as [ut|] eqn:EU; [|discriminate]. apply T_latlon in EL. apply T_utcs in EU. cbn in EU. intros H. apply (G_one _ _ _ H). clear H.
  change (str "$GPGGA,") with (36 :: str "GPGGA,"). eapply (G_intro _ _ _ _ (1 + (1 + (4 + (2 - 1 + (6 + (1 + 0))))))); [lia| |reflexivity].
  apply T_app; [apply (T_str _ "GPGGA,"); reflexivity|]. repeat (apply T_concat_cons; [part|]). apply T_concat_nil.
Qed.
Ltac start n k := eapply (G_intro _ _ _ _ n); [lia| |reflexivity]; apply T_app; [eapply T_eq; [pieces|reflexivity]|]; cbn [app]; repeat (apply T_concat_cons; [part|]); apply T_concat_nil.
Lemma rmc_good s' l : send_rmc ff knots course st = Some (s', l) -> Forall (G (field_commas RMC)) l.
Proof.
  unfold send_rmc. cbv zeta. destruct (calc_cog _ _ _ _) as [cog lc]. destruct (latlon_text ff _) as [ll|] eqn:EL; [|discriminate]. destruct (nmea_mode_indicator _) as [md|] eqn:EM; [|discriminate].
  destruct (nmea_status _) as [sta|] eqn:ES; [|discriminate]. destruct (utc_text true false false _) as [ut|] eqn:EU; [|discriminate]. destruct (utc_text false true true _) as [dt|] eqn:ED; [|discriminate].
  apply T_latlon in EL. apply T_utcs in EU, ED. cbn in EU, ED. intros H. apply Some_inj in H. apply (f_equal snd) in H. cbn [snd] in H. subst l. constructor; [|constructor].
  assert (TM : T 0 [md]). { unfold nmea_mode_indicator in EM. repeat match goal with H : match ?x with _ => _ end = Some _ |- _ => destruct x end; try discriminate; injection EM as <-; apply T_chr; reflexivity. }
  assert (TS : T 0 [sta]). { unfold nmea_status in ES. repeat match goal with H : match ?x with _ => _ end = Some _ |- _ => destruct x end; try discriminate; injection ES as <-; apply T_chr; reflexivity. }
  change (str "$GPRMC,") with (36 :: str "GPRMC,"). destruct (vel_valid _); cbn [app].
  - start (1 + (1 + (1 + (4 + (1 + (1 + (1 + (2 + 0)))))))) RMC.
  - start (1 + (1 + (1 + (4 + (2 + (1 + (2 + 0))))))) RMC.
Qed.
Lemma mode_T f md : nmea_mode_indicator f = Some md -> T 0 [md].
Proof. unfold nmea_mode_indicator. intros EM. repeat match goal with H : match ?x with _ => _ end = Some _ |- _ => destruct x end; try discriminate; injection EM as <-; apply T_chr; reflexivity. Qed.
Lemma status_T f md : nmea_status f = Some md -> T 0 [md].
Proof. unfold nmea_status. intros EM. repeat match goal with H : match ?x with _ => _ end = Some _ |- _ => destruct x end; try discriminate; injection EM as <-; apply T_chr; reflexivity. Qed.
Lemma vtg_good s' l : send_vtg ff knots kmh course st = Some (s', l) -> Forall (G (field_commas VTG)) l.
Proof.
  unfold send_vtg. cbv zeta. destruct (calc_cog _ _ _ _) as [cog lc]. destruct (nmea_mode_indicator _) as [md|] eqn:EM; [|discriminate]. apply mode_T in EM.
  intros H. apply Some_inj in H. apply (f_equal snd) in H. cbn [snd] in H. subst l. constructor; [|constructor].
  change (str "$GPVTG,") with (36 :: str "GPVTG,"). start (1 + (2 + (2 + (4 + (0 + 0))))) VTG.
Qed.
Lemma hdt_good l : send_hdt ff st heading_float = Some l -> Forall (G (field_commas HDT)) l.
Proof.
  unfold send_hdt. destruct (as_hdg _) as [h f]. intros H. apply (G_one _ _ _ H). clear H. change (str "$GPHDT,") with (36 :: str "GPHDT,"). start (1 + (1 + 0)) HDT.
Qed.
Lemma ths_good l : send_ths ff st = Some l -> Forall (G (field_commas THS)) l.
Proof.
  unfold send_ths. destruct (as_orient _) as [h f]. cbv zeta. intros H. apply (G_one _ _ _ H). clear H. change (str "$GPTHS,") with (36 :: str "GPTHS,"). start (1 + (1 + 0)) THS.
Qed.
Lemma gll_good l : send_gll ff st = Some l -> Forall (G (field_commas GLL)) l.
Proof.
  unfold send_gll. cbv zeta. destruct (latlon_text ff _) as [ll|] eqn:EL; [|discriminate]. destruct (nmea_status _) as [sta|] eqn:ES; [|discriminate].
  destruct (nmea_mode_indicator _) as [md|] eqn:EM; [|discriminate]. destruct (utc_text true false false _) as [ut|] eqn:EU; [|discriminate].
  apply T_latlon in EL. apply T_utcs in EU. cbn in EU. apply mode_T in EM. apply status_T in ES. intros H. apply (G_one _ _ _ H). clear H.
  change (str "$GPGLL,") with (36 :: str "GPGLL,"). start (1 + (4 + (1 + (1 + 0)))) GLL.
Qed.
Lemma zda_good l : send_zda st = Some l -> Forall (G (field_commas ZDA)) l.
Proof.
  unfold send_zda. destruct (utc_text true true false _) as [ut|] eqn:EU; [|discriminate]. apply T_utcs in EU. cbn in EU. intros H. apply (G_one _ _ _ H). clear H.
  change (str "$GPZDA,") with (36 :: str "GPZDA,"). start (1 + (4 + (1 + 0))) ZDA.
Qed.
Lemma gst_good l : send_gst code_of ff gst_vals st = Some l -> Forall (G (field_commas GST)) l.
Proof.
  unfold send_gst. cbv zeta. destruct (fix_type _) as [fx|]; [|discriminate]. destruct (utc_text true false false _) as [ut|] eqn:EU; [|discriminate]. apply T_utcs in EU. cbn in EU.
  destruct (talkers_used _ _) as [ts|]; [|discriminate]. destruct (_ || _); intros H; apply (G_one _ _ _ H); clear H.
  - change (str "$GPGST," ++ ut ++ str ",,,,,,") with (36 :: str "GPGST," ++ ut ++ str ",,,,,,"). start (8 + 0) GST.
  - pose proof (gst_six (p_cov (as_pos (msg_get st sPOS true)))) as SX. destruct (gst_vals _) as [|a [|b [|c [|d [|e [|f [|]]]]]]]; try discriminate.
    assert (TK : T 0 (talker_str (znth 0 0 ts))). { unfold talker_str. repeat match goal with |- context [match ?x with _ => _ end] => destruct x end; apply T_nil || (apply (T_eq _ _ _ _ (T_str _ _ eq_refl)); reflexivity) || (eapply T_eq; [apply T_str; reflexivity|reflexivity]). }
    destruct (1 <? len ts).
    + change (str "$GNGST," ++ ut) with (36 :: (str "GNGST," ++ ut)). start (2 + (1 + (5 + 0))) GST.
    + change (str "$" ++ talker_str (znth 0 0 ts) ++ str "GST," ++ ut) with (36 :: (talker_str (znth 0 0 ts) ++ str "GST," ++ ut)). start (2 + (1 + (5 + 0))) GST.
Qed.
Lemma pubx_good s' l : send_pubx ff knots kmh course pubx_acc st mm_down = Some (s', l) -> Forall (G (field_commas PUBX)) l.
Proof.
  unfold send_pubx. cbv zeta. destruct (calc_cog _ _ _ _) as [cog lc]. destruct (latlon_text ff _) as [ll|] eqn:EL; [|discriminate]. destruct (fix_type _) as [fx|]; [|discriminate].
  destruct (utc_text true false false _) as [ut|] eqn:EU; [|discriminate]. apply T_latlon in EL. apply T_utcs in EU. cbn in EU.
  intros H. apply Some_inj in H. apply (f_equal snd) in H. cbn [snd] in H. subst l. constructor; [|constructor].
  assert (NV : T 0 (nav_stat fx (p_flags (as_pos (msg_get st sPOS true))))). { unfold nav_stat. branches; (eapply T_eq; [apply T_str; reflexivity|reflexivity]). }
  change (str "$PUBX,00,") with (36 :: str "PUBX,00,"). destruct (vel_valid _); cbn [app].
  - start (2 + (1 + (5 + (1 + (2 + (1 + (1 + (1 + (1 + (3 + (2 + (0 + 0)))))))))))) PUBX.
  - start (2 + (1 + (5 + (1 + (2 + (3 + (1 + (3 + (2 + (0 + 0)))))))))) PUBX.
Qed.
Lemma T_concat_map {A} (f : A -> list Z) n l : (forall x, In x l -> T n (f x)) -> T (n * len l) (List.concat (List.map f l)).
Proof.
  induction l as [|x l IH]; intros H; cbn [List.map List.concat].
  - rewrite (@len_nil A), Z.mul_0_r. apply T_nil.
  - rewrite len_cons. eapply T_eq; [apply T_app; [apply H; left; reflexivity|apply IH; intros y Y; apply H; right; exact Y]|lia].
Qed.
Lemma talker_T t : T 0 (talker_str t).
Proof. unfold talker_str. repeat match goal with |- context [match ?x with _ => _ end] => destruct x end; first [apply T_nil | eapply T_eq; [apply T_str; reflexivity|reflexivity]]. Qed.
Lemma gsa_print_good prns d tk : T 0 tk -> G (field_commas GSA) (gsa_print ff prns d tk).
Proof.
  intros TK. unfold gsa_print. cbv zeta. set (fx := negb _). set (mp := List.map _ (List.seq 0 12)). cbn [app].
  change (str "$" ++ tk ++ str "GSA,A," ++ [if fx then 51 else 49] ++ str ",") with (36 :: (tk ++ str "GSA,A," ++ [if fx then 51 else 49] ++ str ",")).
  assert (TM : T 12 (List.concat mp)).
  { change 12 with (1 * len (List.seq 0 12)). apply T_concat_map. intros i _. destruct (nth_error _ i); [|eapply T_eq; [apply T_str; reflexivity|reflexivity]].
    apply (T_app _ 0 1); [apply T_d|eapply T_eq; [apply T_str; reflexivity|reflexivity]]. }
  eapply (G_intro _ _ _ _ (3 + (12 + (2 + 0)))); [lia| |reflexivity]. apply T_app.
  - destruct fx; (eapply T_eq; [pieces|reflexivity]).
  - rewrite concat_app. apply T_app; [exact TM|]. apply T_concat_cons; [|apply T_concat_nil]. part.
Qed.
Lemma gsa_good l : send_gsa code_of ff st = Some l -> Forall (G (field_commas GSA)) l.
Proof.
  unfold send_gsa. cbv zeta. destruct (gsa_list _ 0 _ _) as [l0|]; [|discriminate]. destruct (gsa_list _ 1 _ _) as [l1|]; [|discriminate].
  destruct (gsa_list _ 2 _ _) as [l2|]; [|discriminate]. destruct (gsa_list _ 3 _ _) as [l3|]; [|discriminate].
  set (used := filter _ _). destruct (len used =? 0); intros H.
  - apply (G_one _ _ _ H). apply gsa_print_good. eapply T_eq; [apply T_str; reflexivity|reflexivity].
  - apply Some_inj in H. subst l. apply Forall_forall. intros x I. apply in_map_iff in I. destruct I as ([t prns] & <- & _). apply gsa_print_good.
    destruct (1 <? len used); [eapply T_eq; [apply T_str; reflexivity|reflexivity]|apply talker_T].
Qed.
(** GSV *)
Definition wf_el (e : gsv_el) : Prop := u8 (sg_sat (g_sid e)) /\ -128 <= g_el e < 128 /\ 0 <= g_az e < 512 /\ match g_snr e with Some q => 0 <= q <= 64 | None => True end.
Lemma first_snr_range g ms q : Forall (fun m => wf_sid (me_sid m) /\ u8 (me_cn0 m)) ms -> first_snr code_of g ms = Some (Some q) -> 0 <= q <= 64.
Proof.
  induction 1 as [|m ms [_ M] F IH]; cbn [first_snr]; [discriminate|].
  destruct (if sg_sat (me_sid m) =? sg_sat g then _ else _) as [[|]|]; [|exact IH|discriminate]. intros H. apply Some_inj in H. apply Some_inj in H. subst q.
  unfold snr_of, u8 in *. split; [apply Z.div_pos; lia|]. apply Z.lt_succ_r. apply Z.div_lt_upper_bound; lia.
Qed.
Lemma gsv_list_wf t l ms r : Forall (fun a => wf_sid (ae_sid a) /\ u8 (ae_az a) /\ -128 <= ae_el a < 128) l -> Forall (fun m => wf_sid (me_sid m) /\ u8 (me_cn0 m)) ms ->
  gsv_list code_of t l ms = Some r -> Forall wf_el r.
Proof.
  intros F M. revert r. induction F as [|a l (A1 & A2 & A3) F IH]; cbn [gsv_list]; intros r.
  - intros H. apply Some_inj in H. subst r. constructor.
  - destruct (talker _ _) as [t'|]; [|discriminate]. destruct (t' =? -1); [apply IH|]. destruct (first_snr _ _ _) as [snr|] eqn:S; [|discriminate].
    destruct (gsv_list _ t l ms) as [r'|]; [|discriminate]. intros H. apply Some_inj in H. subst r. specialize (IH r' eq_refl). destruct (t' =? t); [|exact IH].
    constructor; [|exact IH]. unfold wf_el, wf_sid, u8 in *. cbn [g_sid g_el g_az g_snr]. split; [exact A1|]. split; [exact A3|]. split; [lia|].
    destruct snr as [q|]; [|exact I]. eapply first_snr_range; eassumption.
Qed.
Lemma gsv_entry_T e : wf_el e -> T 4 (gsv_entry code_of e).
Proof.
  intros (E1 & E2 & E3 & E4). unfold gsv_entry. assert (0 <= nmea_id code_of (g_sid e)) by (apply Z.mod_pos_bound; lia).
  change 4 with (1 + (0 + (1 + (0 + (1 + (0 + 1)))))).
  apply T_app; [eapply T_eq; [pieces|reflexivity]|]. apply T_app; [apply T_u; assumption|]. apply T_app; [eapply T_eq; [pieces|reflexivity]|]. apply T_app; [apply T_d|].
  apply T_app; [eapply T_eq; [pieces|reflexivity]|]. apply T_app; [apply T_u; lia|]. destruct (g_snr e) as [q|]; [|eapply T_eq; [pieces|reflexivity]].
  apply (T_app _ 1 0); [eapply T_eq; [apply T_str; reflexivity|reflexivity]|]. apply T_u. lia.
Qed.
Lemma gsv_msgs_good t n u k : forall i l, 0 <= n -> 0 <= u -> 0 <= i -> Forall wf_el l -> Forall (G (field_commas GSV)) (gsv_msgs code_of t n u k i l).
Proof.
  induction k as [|k IH]; intros i l N U I F; cbn [gsv_msgs]; [constructor|]. constructor.
  - cbn [app]. change (str "$" ++ talker_str t ++ str "GSV," ++ fmt_u 0 n ++ str "," ++ fmt_u 0 (i + 1) ++ str "," ++ fmt_u 2 u) with
      (36 :: (talker_str t ++ str "GSV," ++ fmt_u 0 n ++ str "," ++ fmt_u 0 (i + 1) ++ str "," ++ fmt_u 2 u)).
    pose proof (talker_T t) as TT. eapply (G_intro _ _ _ _ (3 + 4 * len (take 4 l))); [lia| |].
    + apply T_app; [|apply T_concat_map; intros e E; apply gsv_entry_T; rewrite Forall_forall in F; apply F; unfold take in E; rewrite <- (firstn_skipn (Z.to_nat 4) l); apply in_or_app; left; exact E].
      assert (0 <= i + 1) by lia. eapply T_eq; [pieces|reflexivity].
    + cbn [field_commas]. pose proof (len_nonneg l). rewrite len_take. lia.
  - apply IH; try lia. apply Forall_forall. intros e E. rewrite Forall_forall in F. apply F. unfold drop in E. rewrite <- (firstn_skipn (Z.to_nat 4) l). apply in_or_app. right. exact E.
Qed.
Lemma gsv_good l : send_gsv code_of st = Some l -> Forall (G (field_commas GSV)) l.
Proof.
  unfold send_gsv. cbv zeta.
  assert (FA : Forall (fun a => wf_sid (ae_sid a) /\ u8 (ae_az a) /\ -128 <= ae_el a < 128) (as_azel (msg_get st sAZEL false))).
  { pose proof (wf_get st sAZEL false W) as H. unfold wf_slot, as_azel in *. destruct (s_body _); try constructor. exact H. }
  assert (FM : Forall (fun m => wf_sid (me_sid m) /\ u8 (me_cn0 m)) (as_meas (msg_get st sMEAS false))).
  { pose proof (wf_get st sMEAS false W) as H. unfold wf_slot, as_meas in *. destruct (s_body _); try constructor. exact H. }
  destruct (gsv_list _ 0 _ _) as [l0|] eqn:E0; [|discriminate]. destruct (gsv_list _ 1 _ _) as [l1|] eqn:E1; [|discriminate].
  destruct (gsv_list _ 2 _ _) as [l2|] eqn:E2; [|discriminate]. destruct (gsv_list _ 3 _ _) as [l3|] eqn:E3; [|discriminate].
  apply gsv_list_wf in E0, E1, E2, E3; try assumption. intros H. apply Some_inj in H. subst l. destruct (_ =? 0).
  - constructor; [|constructor]. change (str "$GPGSV,1,1,0") with (36 :: str "GPGSV,1,1,0"). eapply (G_intro _ _ _ _ (3 + 0)); [lia| |left; reflexivity].
    apply T_app; [eapply T_eq; [apply T_str; reflexivity|reflexivity]|apply T_concat_nil].
  - repeat (apply Forall_app; split); unfold gsv_print; apply gsv_msgs_good; try lia; try apply len_nonneg; try (apply Z.div_pos; [pose proof (len_nonneg l0); pose proof (len_nonneg l1); pose proof (len_nonneg l2); pose proof (len_nonneg l3); lia|lia]); assumption.
Qed.
Lemma send_good k s' l : send code_of ff geoid knots kmh course gst_vals pubx_acc heading_float mm_down k st = Some (s', l) -> Forall (G (field_commas k)) l.
Proof.
  assert (P : forall o, pure st o = Some (s', l) -> o = Some l) by (intros [x|]; cbn [pure]; congruence).
  unfold send. destruct k; intros H.
  - apply gga_good, P, H.
  - apply (rmc_good s' l H).
  - apply (vtg_good s' l H).
  - apply hdt_good, P, H.
  - apply gll_good, P, H.
  - apply zda_good, P, H.
  - apply gsa_good, P, H.
  - apply gst_good, P, H.
  - apply gsv_good, P, H.
  - apply (pubx_good s' l H).
  - apply ths_good, P, H.
Qed.
End Builders.
