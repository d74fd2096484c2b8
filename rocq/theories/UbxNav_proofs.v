(** Lemmas for C62-C64 *)
From Coq Require Import Reals Lra.
From Flocq Require Import Core IEEE754.Binary IEEE754.Bits.
From Verif Require Import Base Double_model Double_proofs Bytestream_model Esf_model Esf_proofs Ixcom_model Ixcom_float_proofs Near_proofs Exact_proofs SbpEph_model SbpEph_spec NovSbp_model NovImu_proofs Signals_model
  Bytestream_proofs UbxMsg_model UbxMsg_proofs UbxVar_model UbxVar_proofs UbxObs_model UbxNav_model UbxNav_spec.
Open Scope Z_scope.

(** ** values *)
Lemma v_1em7 : val d_1em7 (1 / 10000000) (8 * u53). Proof. cval. Qed.
Lemma v_1em3 : val d_1em3 (1 / 1000) (8 * u53). Proof. cval. Qed.
Lemma v_1em5 : val d_1em5 (1 / 100000) (8 * u53). Proof. cval. Qed.
Lemma dec_val x c n k q : val x (1 / IZR q) (8 * u53) -> c = (10 ^ k)%Z -> q = c -> 1 <= q <= 2 ^ 30 -> Z.abs n <= 2 ^ 32 -> decimal (dmul x (dofZ n)) n k /\ val (dmul x (dofZ n)) (IZR n / IZR q) (11 * u53).
Proof.
  intros V C Q B N. assert (V2 : val (dmul x (dofZ n)) (IZR n / IZR q) (11 * u53)).
  { apply (val_eq _ (1 / IZR q * IZR n)); [|unfold Rdiv; ring]. apply (vmul _ _ _ _ 8 0); [exact V|apply vZ; lia| |lra|lra|lra].
    rewrite Rmult_comm. unfold Rdiv. rewrite Rmult_1_l. apply (wid_mid n 40); [lia|lia|]. apply wid_inv, wid_Z. lia. }
  split; [|exact V2]. destruct V2 as [F V2]. split; [exact F|]. rewrite <- C, <- Q. eapply near_weaken; [exact V2|]. change (2 ^ 49)%Z with 562949953421312%Z. unfold u53. lra.
Qed.
Lemma lat_val n : Z.abs n <= 2 ^ 32 -> decimal (dmul d_1em7 (dofZ n)) n 7.
Proof. intros H. apply (dec_val _ (10 ^ 7) n 7 10000000 v_1em7); [reflexivity|reflexivity|lia|exact H]. Qed.
Lemma height_val n : Z.abs n <= 2 ^ 32 -> decimal (dmul d_1em3 (dofZ n)) n 3.
Proof. intros H. apply (dec_val _ (10 ^ 3) n 3 1000 v_1em3); [reflexivity|reflexivity|lia|exact H]. Qed.
Lemma dmul_comm_val n : Z.abs n <= 2 ^ 32 -> val (dmul (dofZ n) d_1em5) (IZR n / 100000) (11 * u53).
Proof.
  intros H. apply (val_eq _ (IZR n * (1 / 100000))); [|unfold Rdiv; ring]. apply (vmul _ _ _ _ 0 8); [apply vZ; lia|exact v_1em5| |lra|lra|lra].
  apply (wid_mid n 40); [lia|lia|]. unfold Rdiv. rewrite Rmult_1_l. apply wid_inv, (wid_Z 100000). lia.
Qed.
Lemma acc_val n : Z.abs n <= 2 ^ 32 -> decimal32 (f32 (dmul (dofZ n) d_1em5)) n.
Proof.
  intros H. pose proof (dmul_comm_val n H) as V. unfold decimal32.
  assert (W : val (dofflt (f32 (dmul (dofZ n) d_1em5))) (IZR n / 100000) (/ IZR (2 ^ 23))).
  { eapply val_f32_sharp; [exact V| |unfold u53; lra|change (2 ^ 23)%Z with 8388608%Z; unfold u53, u24; lra].
    unfold Rdiv. apply prod_range; [lia|]. split.
    - apply Rle_trans with (bpow radix2 (-20)); [apply bpow_le; lia|]. unfold bpow. cbn. lra.
    - apply Rle_trans with (bpow radix2 0); [|apply bpow_le; lia]. unfold bpow. lra. }
  exact W.
Qed.
(** ** flags *)
Lemma flag_bits f : 0 <= f < 256 -> (Z.land f 2 =? 0) = negb (Z.testbit f 1) /\ Z.land f 0xC0 = 64 * (f / 64) /\ 0 <= f / 64 < 4.
Proof.
  intros H. assert (G : forallb (fun f => Bool.eqb (Z.land f 2 =? 0) (negb (Z.testbit f 1)) && (Z.land f 0xC0 =? 64 * (f / 64)) && (0 <=? f / 64) && (f / 64 <? 4)) (map Z.of_nat (seq 0 256)) = true)
    by (vm_compute; reflexivity).
  rewrite forallb_forall in G. specialize (G f). rewrite !Bool.andb_true_iff, Bool.eqb_true_iff, Z.eqb_eq, Z.leb_le, Z.ltb_lt in G.
  assert (I : In f (map Z.of_nat (seq 0 256))) by (apply in_map_iff; exists (Z.to_nat f); split; [lia|apply in_seq; lia]). tauto.
Qed.
Lemma pvt_flags_spec ft f : 0 <= ft < 256 -> 0 <= f < 256 -> pos_flags ft f (pvt_flags ft f).
Proof.
  intros T F. destruct (flag_bits f F) as (B1 & B2 & B3). unfold pvt_flags. cbv zeta. rewrite B1, B2. unfold pos_flags, uses_ins.
  destruct (Z.eqb_spec ft 0) as [->|N0]. { exists SBP_INVALID. split; [constructor; lia|reflexivity]. }
  destruct (Z.eqb_spec ft 5) as [->|N5]. { exists SBP_INVALID. split; [constructor; lia|reflexivity]. }
  destruct (Z.eqb_spec ft 1) as [->|N1]. { exists SBP_DR. split; [constructor|reflexivity]. }
  assert (C : ft = 2 \/ ft = 3 \/ ft = 4 \/ 5 < ft) by lia. destruct C as [C|[C|[C|C]]].
  4: { destruct (Z.eqb_spec ft 2); [lia|]. destruct (Z.eqb_spec ft 3); [lia|]. destruct (Z.eqb_spec ft 4); [lia|]. exists SBP_INVALID. split; [constructor; lia|reflexivity]. }
  all: subst ft; cbn [Z.eqb Pos.eqb orb]; destruct (Z.testbit f 1) eqn:TB; cbn [negb];
    [ assert (D : f / 64 = 0 \/ f / 64 = 1 \/ f / 64 = 2 \/ f / 64 = 3) by lia; destruct D as [D|[D|[D|D]]]; rewrite D;
      [exists SBP_DGNSS; split; [apply pm_dgnss; (lia || assumption)|reflexivity]|exists SBP_FLOAT; split; [apply pm_float; (lia || assumption)|reflexivity]
      |exists SBP_FIXED; split; [apply pm_fixed; (lia || assumption)|reflexivity]|exists SBP_INVALID; split; [apply pm_reserved; (lia || assumption)|reflexivity]]
    | exists SBP_SPP; split; [apply pm_spp; (lia || assumption)|reflexivity] ].
Qed.
Lemma pos_flags_fun ft f a b : pos_flags ft f a -> pos_flags ft f b -> a = b.
Proof. intros (m & M & ->) (n & N & ->). f_equal. destruct M; inversion N; subst; try reflexivity; try lia; congruence. Qed.
Lemma times10_ok z : Z.abs z <= 214748364 -> times10 z = Some (10 * z).
Proof. intros H. unfold times10, s32_ok. destruct (Z.leb_spec (- 2 ^ 31) (10 * z)); [|lia]. destruct (Z.ltb_spec (10 * z) (2 ^ 31)); [|lia]. reflexivity. Qed.
Lemma acc_u16_spec z : acc_u16 z = Z.min z 65535.
Proof. unfold acc_u16. destruct (Z.ltb_spec 65535 z); lia. Qed.
(** ** dispatch *)
Lemma len_ge2 (a b : Z) t : (len (a :: b :: t) <? 2) = false.
Proof. rewrite !len_cons. pose proof (len_nonneg t). destruct (Z.ltb_spec (1 + (1 + len t)) 2); [lia|reflexivity]. Qed.
Lemma head_hnr m : hnr_pvt_fits m -> exists t, encode_hnr_pvt m = 0x28 :: 0 :: t.
Proof. intros (A & B & _). unfold encode_hnr_pvt. rewrite A, B. eexists. reflexivity. Qed.
Lemma head_att m : nav_att_fits m -> exists t, encode_nav_att m = 1 :: 5 :: t.
Proof. intros (A & B & _). unfold encode_nav_att. rewrite A, B. eexists. reflexivity. Qed.
Lemma head_pvt m : nav_pvt_fits m -> exists t, encode_nav_pvt m = 1 :: 7 :: t.
Proof. intros (A & B & _). unfold encode_nav_pvt. rewrite A, B. eexists. reflexivity. Qed.
Lemma head_vel m : nav_velecef_fits m -> exists t, encode_nav_velecef m = 1 :: 0x11 :: t.
Proof. intros (A & B & _). unfold encode_nav_velecef. rewrite A, B. eexists. reflexivity. Qed.
Lemma head_sat m : nav_sat_fits m -> exists t, encode_nav_sat m = 1 :: 0x35 :: t.
Proof. intros (A & B & _). unfold encode_nav_sat. rewrite A, B. eexists. reflexivity. Qed.
Lemma head_status m : nav_status_fits m -> exists t, encode_nav_status m = 1 :: 3 :: t.
Proof. intros (A & B & _). unfold encode_nav_status. rewrite A, B. eexists. reflexivity. Qed.
Section D.
Variable mw : dbl -> Z * dbl -> option Z.
Notation ustep := (unav_step mw).
Ltac disp H := destruct H as [t H]; unfold unav_step; let D := fresh in let E := fresh in
  rewrite H; cbn [app]; rewrite len_ge2; cbn [znth Z.ltb Z.eqb Z.to_nat nth Z.compare Pos.eqb andb]; rewrite app_comm_cons, app_comm_cons, <- H.
Lemma step_hnr g s m r : hnr_pvt_fits m -> ustep g s (encode_hnr_pvt m ++ r) = match handle_hnr_pvt g s m with Some out => Some (g, s, out) | None => None end.
Proof. intros F. pose proof (head_hnr m F) as H. disp H. rewrite (codec_round_trip _ _ _ hnr_pvt_codec _ _ F). reflexivity. Qed.
Lemma step_att g s m r : nav_att_fits m -> ustep g s (encode_nav_att m ++ r) =
  match fill_orient g m with Some o => Some (g, mkuinst (ui_hnr s) o (ui_obs s) (ui_imu s) (ui_week s), if ui_hnr s then [] else [UOrient o]) | None => None end.
Proof. intros F. pose proof (head_att m F) as H. disp H. rewrite (codec_round_trip _ _ _ nav_att_codec _ _ F). reflexivity. Qed.
Lemma step_pvt g s m r : nav_pvt_fits m -> ustep g s (encode_nav_pvt m ++ r) = Some (snd (fill_pos m), s, if ui_hnr s then [] else [fst (fill_pos m)]).
Proof. intros F. pose proof (head_pvt m F) as H. disp H. rewrite (codec_round_trip _ _ _ nav_pvt_codec _ _ F). destruct (fill_pos m). reflexivity. Qed.
Lemma step_vel g s m r : nav_velecef_fits m -> ustep g s (encode_nav_velecef m ++ r) = match fill_vel g m with Some o => Some (g, s, [o]) | None => None end.
Proof. intros F. pose proof (head_vel m F) as H. disp H. rewrite (codec_round_trip _ _ _ nav_velecef_codec _ _ F). reflexivity. Qed.
Lemma step_sat g s m r : nav_sat_fits m -> ustep g s (encode_nav_sat m ++ r) = match handle_nav_sat m with Some out => Some (g, s, out) | None => None end.
Proof. intros F. pose proof (head_sat m F) as H. disp H. rewrite (codec_round_trip _ _ _ nav_sat_codec _ _ F). reflexivity. Qed.
Lemma step_status g s m r : nav_status_fits m -> ustep g s (encode_nav_status m ++ r) = match handle_nav_status mw s m with Some (s1, out) => Some (g, s1, out) | None => None end.
Proof. intros F. pose proof (head_status m F) as H. disp H. rewrite (codec_round_trip _ _ _ nav_status_codec _ _ F). reflexivity. Qed.
End D.
(** ** histories *)
Section H.
Variable mw : dbl -> Z * dbl -> option Z.
Notation ustep := (unav_step mw).
Notation proc := (uproc mw).
Lemma step_keeps g s f g1 s1 out : ustep g s f = Some (g1, s1, out) ->
  (~ is_frame 1 7 (EFrame f) -> g1 = g) /\ (~ is_frame 1 5 (EFrame f) -> ui_orient s1 = ui_orient s) /\ ui_hnr s1 = ui_hnr s.
Proof.
  unfold unav_step. destruct (Z.ltb_spec (len f) 2) as [L|L].
  { intros [= <- <- _]. auto. }
  destruct f as [|c [|i r]]; try (cbn in L; lia). change (znth 0 0 (c :: i :: r)) with c. change (znth 0 1 (c :: i :: r)) with i. cbv zeta.
  destruct ((c =? 40) && (i =? 0)).
  { destruct (decode_hnr_pvt _) as [[m q]| | |]; try (intros [= <- <- _]; auto). destruct (handle_hnr_pvt g s m); [|discriminate]. intros [= <- <- _]. auto. }
  destruct (Z.eqb_spec c 1) as [->|NC].
  { destruct (Z.eqb_spec i 5) as [->|N5].
    { destruct (decode_nav_att _) as [[m q]| | |]; try (intros [= <- <- _]; auto). destruct (fill_orient g m); [|discriminate]. intros [= <- <- _]. cbn [ui_orient ui_hnr].
      split; [auto|]. split; [|reflexivity]. intros N. exfalso. apply N. exists r. reflexivity. }
    destruct (Z.eqb_spec i 7) as [->|N7].
    { destruct (decode_nav_pvt _) as [[m q]| | |]; [destruct (fill_pos m) as [o g2]| | |]; intros [= <- <- _]; auto.
      split; [|auto]. intros N. exfalso. apply N. exists r. reflexivity. }
    destruct (i =? 17). { destruct (decode_nav_velecef _) as [[m q]| | |]; try (intros [= <- <- _]; auto). destruct (fill_vel g m); [|discriminate]. intros [= <- <- _]. auto. }
    destruct (i =? 53). { destruct (decode_nav_sat _) as [[m q]| | |]; try (intros [= <- <- _]; auto). destruct (handle_nav_sat m); [|discriminate]. intros [= <- <- _]. auto. }
    destruct (i =? 3); [|intros [= <- <- _]; auto].
    destruct (decode_nav_status _) as [[m q]| | |]; try (intros [= <- <- _]; auto). destruct (handle_nav_status mw s m) as [[s2 o]|] eqn:E; [|discriminate]. intros [= <- <- _].
    split; [auto|]. revert E. unfold handle_nav_status. cbv zeta.
    assert (P : forall x, x = (if time_good m then mkuinst (ui_hnr s) (ui_orient s) (ui_obs s) (ui_imu s) true else s) -> ui_orient x = ui_orient s /\ ui_hnr x = ui_hnr s)
      by (intros x ->; destruct (time_good m); auto).
    match goal with |- context [ui_obs ?x] => remember x as s3 eqn:Q end.
    destruct (P s3 eq_refl) as [P1 P2]. clear P Q.
    assert (G : s2 = s3 -> (~ is_frame 1 5 (EFrame (1 :: i :: r)) -> ui_orient s2 = ui_orient s) /\ ui_hnr s2 = ui_hnr s) by (intros ->; auto).
    destruct (fix_good m && time_good m); [|intros [= <- _]; apply G; reflexivity]. destruct (ui_obs s3) as [obs|]; [|intros [= <- _]; apply G; reflexivity].
    destruct (negb _); [intros [= <- _]; apply G; reflexivity|]. destruct (mw _ obs); [|intros [= <- _]; apply G; reflexivity]. destruct (ui_imu s3) as [imu|]; [|intros [= <- _]; apply G; reflexivity].
    destruct (negb _); [intros [= <- _]; apply G; reflexivity|]. destruct (mw _ imu); [|intros [= <- _]; apply G; reflexivity]. destruct (dround _) as [ms|]; [|discriminate].
    destruct (s32_ok ms); [|discriminate]. intros [= <- _]. apply G; reflexivity. }
  destruct ((c =? 2) && (i =? 21)).
  { destruct (decode_rawx _) as [[m q]| | |]; [unfold rawx_time; destruct (_ && ui_week s)| | |]; intros [= <- <- _]; auto. }
  destruct ((c =? 10) && (i =? 9)); intros [= <- <- _]; auto.
Qed.
Lemma proc_keeps k es : forall g ss g1 ss1 out, proc g ss es = Some (g1, ss1, out) ->
  ((forall j e, In (j, e) es -> ~ is_frame 1 7 e) -> g1 = g) /\ ((forall e, In (k, e) es -> ~ is_frame 1 5 e) -> ui_orient (ss1 k) = ui_orient (ss k)) /\
  ui_hnr (ss1 k) = hnr_on k es (ui_hnr (ss k)).
Proof.
  induction es as [|[j e] es IH]; intros g ss g1 ss1 out R; cbn [uproc] in R.
  - injection R as <- <- _. auto.
  - destruct (uev_step mw g (ss j) e) as [[[g2 s2] o]|] eqn:E; [|discriminate].
    destruct (proc g2 (fun i => if i =? j then s2 else ss i) es) as [[[g3 ss3] o3]|] eqn:E3; [|discriminate]. injection R as <- <- _.
    destruct (IH _ _ _ _ _ E3) as (A & B & C). clear IH E3.
    assert (K : (~ is_frame 1 7 e -> g2 = g) /\ (~ is_frame 1 5 e -> ui_orient s2 = ui_orient (ss j)) /\ ui_hnr s2 = match e with EHnr b => b | _ => ui_hnr (ss j) end).
    { destruct e as [f|b|t]; cbn [uev_step] in E; [exact (step_keeps _ _ _ _ _ _ E)|injection E as <- <- _; auto|injection E as <- <- _; auto]. }
    destruct K as (K1 & K2 & K3). split; [|split].
    + intros N. rewrite A; [|intros i e' I; apply (N i e'); right; exact I]. apply K1. apply (N j e). left. reflexivity.
    + intros N. rewrite B; [|intros e' I; apply (N e'); right; exact I]. destruct (Z.eqb_spec k j) as [->|]; [|reflexivity]. apply K2. apply N. left. reflexivity.
    + rewrite C. cbn [hnr_on]. destruct (Z.eqb_spec k j) as [->|NE]; [rewrite K3; destruct e; [reflexivity|rewrite Z.eqb_refl; reflexivity|reflexivity]|].
      destruct e; [reflexivity| |reflexivity]. destruct (Z.eqb_spec j k); [lia|reflexivity].
Qed.
Lemma proc_app es1 es2 : forall g ss g2 ss2 out, proc g ss (es1 ++ es2) = Some (g2, ss2, out) ->
  exists g1 ss1 o1 o2, proc g ss es1 = Some (g1, ss1, o1) /\ proc g1 ss1 es2 = Some (g2, ss2, o2) /\ out = o1 ++ o2.
Proof.
  induction es1 as [|[j e] es IH]; intros g ss g2 ss2 out R; cbn [app uproc] in R |- *.
  - exists g, ss, [], out. auto.
  - destruct (uev_step mw g (ss j) e) as [[[g3 s3] o]|]; [|discriminate].
    destruct (proc g3 (fun i => if i =? j then s3 else ss i) (es ++ es2)) as [[[g4 ss4] o4]|] eqn:E; [|discriminate]. injection R as <- <- <-.
    destruct (IH _ _ _ _ _ E) as (g1 & ss1 & o1 & o2 & A & B & ->). rewrite A. exists g1, ss1, (map (fun o => (j, o)) o ++ o1), o2. rewrite app_assoc. auto.
Qed.
End H.
(** ** NAV-SAT *)
Lemma half_round n : Z.abs n <= 2 ^ 20 -> exists a, dround (ddiv (dofZ n) (dofZ 2)) = Some a /\ (0 <= n <= 510 -> 0 <= a <= 255 /\ 2 * a - 1 <= n <= 2 * a).
Proof.
  intros H. destruct (ex_round _ n 1 (ex_div n 1 ltac:(lia) ltac:(lia)) ltac:(lia)) as (a & E & _). change (2 ^ 1) with 2 in E. exists a. split; [exact E|]. intros P.
  assert (G : forallb (fun n => match dround (ddiv (dofZ n) (dofZ 2)) with Some a => (0 <=? a) && (a <=? 255) && (2 * a - 1 <=? n) && (n <=? 2 * a) | None => false end) (map Z.of_nat (seq 0 511)) = true)
    by (vm_compute; reflexivity).
  rewrite forallb_forall in G. specialize (G n). rewrite E, !Bool.andb_true_iff, !Z.leb_le in G.
  assert (I : In n (map Z.of_nat (seq 0 511))) by (apply in_map_iff; exists (Z.to_nat n); split; [lia|apply in_seq; lia]). apply G in I. lia.
Qed.
Lemma quad_round n : Z.abs n <= 2 ^ 20 -> dround (dmul (dofZ n) (dofZ 4)) = Some (4 * n).
Proof.
  intros H. apply (ex_round_int _ (4 * n) 0); [|lia]. replace (4 * n * 2 ^ 0) with (n * 4) by lia. apply ex_mul; [apply ex_Z; lia|lia|lia|lia].
Qed.
Lemma azel_spec d : nav_sat_data_fits d -> exists x, azel_of d = Some x /\ (0 <= ns_azim d <= 510 -> azel_says d x).
Proof.
  intros (G & _ & _ & _ & A & _). unfold sfits in A. cbn in A. destruct (half_round (ns_azim d) ltac:(lia)) as (a & E & R). unfold azel_of. rewrite E.
  eexists. split; [reflexivity|]. intros P. destruct (R P) as [B C]. rewrite Z.mod_small by lia. unfold azel_says. split; [reflexivity|]. split; [|auto].
  intros mc M. inversion M; reflexivity.
Qed.
Lemma meas_spec d : nav_sat_data_fits d -> exists x, meas_of d = Some x /\ (ns_cno d <= 63 -> state_says d x).
Proof.
  intros (G & _ & C & _). unfold ufits in C. cbn in C. unfold meas_of. rewrite quad_round by lia.
  eexists. split; [reflexivity|]. intros P. rewrite Z.mod_small by lia. unfold state_says. split; [reflexivity|]. split; [|reflexivity].
  intros mc M. inversion M; reflexivity.
Qed.
Lemma azels_app a b : azels (a ++ b) = azels a ++ azels b.
Proof. induction a as [|x a IH]; [reflexivity|]. destruct x; cbn [app azels]; rewrite ?IH, ?app_assoc; reflexivity. Qed.
Lemma states_app a b : states (a ++ b) = states a ++ states b.
Proof. induction a as [|x a IH]; [reflexivity|]. destruct x; cbn [app states]; rewrite ?IH, ?app_assoc; reflexivity. Qed.
Definition sat_msg (o : uout) : Prop := match o with UAzEl l => 1 <= len l <= 63 | UMeas l => 1 <= len l <= 85 | _ => False end.
Lemma sat_loop_spec l : Forall nav_sat_data_fits l -> forall az ms, len az < 63 -> len ms < 85 -> exists out xs ys, sat_loop l az ms = Some out /\
  Forall sat_msg out /\ azels out = az ++ xs /\ states out = ms ++ ys /\ Forall2 (fun d x => 0 <= ns_azim d <= 510 -> azel_says d x) l xs /\ Forall2 (fun d y => ns_cno d <= 63 -> state_says d y) l ys.
Proof.
  induction l as [|d l IH]; intros F az ms LA LM; cbn [sat_loop].
  - exists ((if 0 <? len az then [UAzEl az] else []) ++ (if 0 <? len ms then [UMeas ms] else [])), [], []. split; [reflexivity|]. rewrite azels_app, states_app, !app_nil_r.
    pose proof (len_nonneg az). pose proof (len_nonneg ms).
    assert (A0 : ~ 0 < len az -> az = []) by (intros; apply len_zero_nil; lia). assert (M0 : ~ 0 < len ms -> ms = []) by (intros; apply len_zero_nil; lia).
    split; [|split; [|split; [|split; constructor]]].
    + apply Forall_app. split; [destruct (Z.ltb_spec 0 (len az))|destruct (Z.ltb_spec 0 (len ms))]; constructor; cbn [sat_msg]; try lia; constructor.
    + destruct (Z.ltb_spec 0 (len az)) as [P|P]; [|rewrite A0 by lia]; destruct (0 <? len ms); cbn [azels app]; rewrite ?app_nil_r; reflexivity.
    + destruct (Z.ltb_spec 0 (len ms)) as [P|P]; [|rewrite M0 by lia]; destruct (0 <? len az); cbn [states app]; rewrite ?app_nil_r; reflexivity.
  - apply Forall_cons_iff in F. destruct F as [Fd F]. destruct (azel_spec d Fd) as (a & EA & SA). destruct (meas_spec d Fd) as (c & EC & SC). rewrite EA, EC. cbv zeta.
    assert (LA1 : len (az ++ [a]) = len az + 1) by (rewrite len_app; reflexivity). assert (LM1 : len (ms ++ [c]) = len ms + 1) by (rewrite len_app; reflexivity).
    pose proof (len_nonneg az). pose proof (len_nonneg ms).
    unfold AZEL_MAX, STATES_MAX. rewrite LA1, LM1.
    destruct (IH F (if 63 <? len az + 1 + 1 then [] else az ++ [a]) (if 85 <? len ms + 1 + 1 then [] else ms ++ [c])) as (out & xs & ys & E & M & X & Y & FX & FY).
    { destruct (Z.ltb_spec 63 (len az + 1 + 1)); [cbn; lia|lia]. } { destruct (Z.ltb_spec 85 (len ms + 1 + 1)); [cbn; lia|lia]. }
    rewrite E. eexists. exists (a :: xs), (c :: ys). split; [reflexivity|]. rewrite !azels_app, !states_app, X, Y.
    split; [|split; [|split; [|split; constructor; assumption]]].
    + apply Forall_app. split; [destruct (63 <? _); [constructor; [cbn [sat_msg]; lia|constructor]|constructor]|]. apply Forall_app. split; [destruct (85 <? _); [constructor; [cbn [sat_msg]; lia|constructor]|constructor]|exact M].
    + destruct (63 <? len az + 1 + 1); destruct (85 <? len ms + 1 + 1); cbn [azels app]; rewrite ?app_nil_r, <- ?app_assoc; reflexivity.
    + destruct (63 <? len az + 1 + 1); destruct (85 <? len ms + 1 + 1); cbn [states app]; rewrite ?app_nil_r, <- ?app_assoc; reflexivity.
Qed.
(** ** NAV-STATUS *)
(** a time of week in seconds made from milliseconds: the same instant up to whole weeks and 0.2 microseconds *)
Lemma tow_spec n : 0 <= n < 2 ^ 32 -> let t := norm_week (dmul d_milli (dofZ n)) in
  dfin t = true /\ (0 <= dR t < 604800)%R /\ exists k, (Rabs (1000 * dR t - IZR (n - 604800000 * k)) <= / 5000)%R.
Proof.
  intros H. cbv zeta. destruct (secs_spec n ltac:(lia)) as (F & B & E). destruct (norm_week_spec _ F) as (F2 & B2 & k & K & E2).
  { split; [lra|]. eapply Rle_lt_trans; [apply B|]. change (bpow radix2 53) with 9007199254740992%R. lra. }
  split; [exact F2|]. split; [exact B2|]. exists k. rewrite E2, minus_IZR, mult_IZR. apply Rabs_le_inv in E. apply Rabs_le. lra.
Qed.
Lemma offset_spec a b : 0 <= a < 2 ^ 32 -> 0 <= b < 2 ^ 32 ->
  let ta := norm_week (dmul d_milli (dofZ a)) in let tb := norm_week (dmul d_milli (dofZ b)) in
  exists ja jb, dround (dmul (dofZ 1000) (dsub ta tb)) = Some ((a - 604800000 * ja) - (b - 604800000 * jb)) /\
    (Rabs (1000 * dR ta - IZR (a - 604800000 * ja)) <= / 5000)%R /\ (Rabs (1000 * dR tb - IZR (b - 604800000 * jb)) <= / 5000)%R /\
    Z.abs ((a - 604800000 * ja) - (b - 604800000 * jb)) <= 604800001.
Proof.
  intros HA HB. destruct (tow_spec a HA) as (FA & BA & ja & EA). destruct (tow_spec b HB) as (FB & BB & jb & EB). cbv zeta in *. exists ja, jb.
  set (ta := norm_week (dmul d_milli (dofZ a))) in *. set (tb := norm_week (dmul d_milli (dofZ b))) in *.
  set (A := a - 604800000 * ja) in *. set (B := b - 604800000 * jb) in *. apply Rabs_le_inv in EA, EB.
  assert (BIG : (bpow radix2 20 <= bpow radix2 1000)%R) by (apply bpow_le; lia). change (bpow radix2 20) with 1048576%R in BIG.
  assert (BIG2 : (bpow radix2 30 <= bpow radix2 1000)%R) by (apply bpow_le; lia). change (bpow radix2 30) with 1073741824%R in BIG2.
  destruct (dsub_spec ta tb FA FB) as [FS VS]. { apply Rabs_le. lra. }
  assert (E1 : (Rabs (dR (dsub ta tb) - (dR ta - dR tb)) <= bpow radix2 (20 - 54))%R).
  { rewrite VS. apply rnd_err; [lia|]. change (bpow radix2 20) with 1048576%R. apply Rabs_lt. lra. }
  change (bpow radix2 (20 - 54)) with (/ 17179869184)%R in E1. apply Rabs_le_inv in E1.
  destruct (dofZ_exact 1000 ltac:(lia)) as [FK VK].
  destruct (dmul_spec (dofZ 1000) (dsub ta tb) FK FS) as [FM VM]. { rewrite VK. apply Rabs_le. lra. }
  assert (E2 : (Rabs (dR (dmul (dofZ 1000) (dsub ta tb)) - 1000 * dR (dsub ta tb)) <= bpow radix2 (30 - 54))%R).
  { rewrite VM, VK. apply rnd_err; [lia|]. change (bpow radix2 30) with 1073741824%R. apply Rabs_lt. lra. }
  change (bpow radix2 (30 - 54)) with (/ 16777216)%R in E2. apply Rabs_le_inv in E2.
  assert (Q : dround (dmul (dofZ 1000) (dsub ta tb)) = Some (A - B)).
  { assert (F' := FM). apply (dint_fin zra) in F'. destruct F' as (z & Q). change (dint zra) with dround in Q. rewrite Q. f_equal. pose proof (dround_close _ _ Q) as C. apply Rabs_le_inv in C.
    assert (D : (Rabs (IZR (z - (A - B))) < 1)%R). { rewrite !minus_IZR. apply Rabs_lt. lra. } rewrite <- abs_IZR in D. apply lt_IZR in D. lia. }
  split; [exact Q|]. split; [apply Rabs_le; lra|]. split; [apply Rabs_le; lra|].
  apply le_IZR. rewrite abs_IZR, minus_IZR. apply Rabs_le. lra.
Qed.
Lemma sat_loop_fwd l : forall az ms out, sat_loop l az ms = Some out -> forall a b c, ~ In (UFwd a b c) out.
Proof.
  induction l as [|d l IH]; intros az ms out E a b c; cbn [sat_loop] in E.
  - injection E as <-. intros I. apply in_app_or in I. destruct I as [I|I]; [destruct (0 <? len az)|destruct (0 <? len ms)]; try exact I; destruct I as [I|[]]; discriminate I.
  - destruct (azel_of d) as [x|]; [|discriminate]. destruct (meas_of d) as [y|]; [|discriminate]. cbv zeta in E.
    match type of E with match sat_loop l ?u ?v with _ => _ end = _ => destruct (sat_loop l u v) as [o|] eqn:E2; [|discriminate] end.
    injection E as <-. intros I. apply in_app_or in I. destruct I as [I|I].
    { match type of I with In _ (if ?b then _ else _) => destruct b end; [|exact I]. destruct I as [I|[]]; discriminate I. }
    apply in_app_or in I. destruct I as [I|I]. { match type of I with In _ (if ?b then _ else _) => destruct b end; [|exact I]. destruct I as [I|[]]; discriminate I. }
    exact (IH _ _ _ E2 _ _ _ I).
Qed.
Lemma land_bit f k : (negb (Z.land f (2 ^ k) =? 0)) = Z.testbit f k \/ k < 0.
Proof.
  destruct (Z.ltb_spec k 0); [right; assumption|left].
  assert (E : Z.land f (2 ^ k) = if Z.testbit f k then 2 ^ k else 0).
  { apply Z.bits_inj'. intros n N. rewrite Z.land_spec. destruct (Z.eq_dec n k) as [->|D].
    - rewrite Z.pow2_bits_true by lia. rewrite Bool.andb_true_r. destruct (Z.testbit f k); [rewrite Z.pow2_bits_true by lia; reflexivity|rewrite Z.testbit_0_l; reflexivity].
    - rewrite Z.pow2_bits_false by lia. rewrite Bool.andb_false_r. destruct (Z.testbit f k); [rewrite Z.pow2_bits_false by lia; reflexivity|rewrite Z.testbit_0_l; reflexivity]. }
  rewrite E. destruct (Z.testbit f k); [|reflexivity]. pose proof (Z.pow_pos_nonneg 2 k ltac:(lia) ltac:(lia)). destruct (Z.eqb_spec (2 ^ k) 0); [lia|reflexivity].
Qed.
Lemma land_bit' f k : 0 <= k -> (negb (Z.land f (2 ^ k) =? 0)) = Z.testbit f k.
Proof. intros H. destruct (land_bit f k); [assumption|lia]. Qed.
Lemma time_good_spec m : time_good m = true <-> time_known m.
Proof. unfold time_good, time_known. rewrite (land_bit' _ 3) by lia. rewrite (land_bit' _ 2) by lia. rewrite Bool.andb_true_iff. tauto. Qed.
Lemma fix_good_spec m : fix_good m = true <-> fix_known m.
Proof. unfold fix_good, fix_known. rewrite (land_bit' _ 0) by lia. rewrite Bool.andb_true_iff, Bool.orb_true_iff, !Z.eqb_eq. tauto. Qed.
Lemma valid_spec t : 0 <= fst t -> gps_tow (snd t) -> gps_time_valid t = true.
Proof.
  intros A [F [B C]]. unfold gps_time_valid. destruct (dofZ_exact 0 ltac:(lia)) as [F0 V0]. destruct (dofZ_exact 604800 ltac:(lia)) as [F1 V1].
  destruct (Z.leb_spec 0 (fst t)); [|lia]. rewrite !dltb_spec by assumption. rewrite V0, V1. rewrite Rlt_bool_false by lra. rewrite Rlt_bool_true by lra. reflexivity.
Qed.
Lemma s16_small z : - 32768 <= z < 32768 -> to_s16_wrap z = z.
Proof.
  intros H. unfold to_s16_wrap. cbv zeta. destruct (Z.ltb_spec z 0).
  - assert (E : z mod 65536 = z + 65536) by (symmetry; apply (Z.mod_unique _ _ (-1)); lia). rewrite E. destruct (Z.ltb_spec (z + 65536) 32768); lia.
  - rewrite Z.mod_small by lia. destruct (Z.ltb_spec z 32768); lia.
Qed.
Lemma week_range w wn (t : dbl) (rt : dbl) : (Rabs (IZR w * 604800 + dR t - (IZR wn * 604800 + dR rt)) <= 302400)%R -> 0 <= wn <= 32000 -> gps_tow rt -> (0 <= dR t < 604800)%R -> - 2 <= w <= 32002.
Proof.
  intros H B [_ T] D. apply Rabs_le_inv in H.
  assert (E : (IZR (w - wn) * 604800 < 3 * 604800)%R /\ (- 3 * 604800 < IZR (w - wn) * 604800)%R) by (rewrite minus_IZR; lra). destruct E as [E1 E2].
  assert (w - wn < 3) by (apply lt_IZR; lra). assert (-3 < w - wn) by (apply lt_IZR; lra). lia.
Qed.
Section S.
Variable mw : dbl -> Z * dbl -> option Z.
Notation ustep := (unav_step mw).
Notation proc := (uproc mw).
(** what handle_nav_status can do *)
Lemma status_cases s m s1 out : handle_nav_status mw s m = Some (s1, out) ->
  s1 = (if time_good m then mkuinst (ui_hnr s) (ui_orient s) (ui_obs s) (ui_imu s) true else s) /\
  (out = [] \/ exists w ms obs imu, out = [UOffset w ms 0 0] /\ fix_good m = true /\ time_good m = true /\ ui_obs s = Some obs /\ ui_imu s = Some imu).
Proof.
  unfold handle_nav_status. cbv zeta. remember (if time_good m then mkuinst (ui_hnr s) (ui_orient s) (ui_obs s) (ui_imu s) true else s) as s3 eqn:Q.
  assert (O : ui_obs s3 = ui_obs s /\ ui_imu s3 = ui_imu s) by (subst s3; destruct (time_good m); auto). destruct O as [O1 O2]. rewrite O1, O2.
  destruct (fix_good m && time_good m) eqn:FT; [|intros [= <- <-]; auto]. destruct (ui_obs s) as [obs|]; [|intros [= <- <-]; auto].
  destruct (negb _); [intros [= <- <-]; auto|]. destruct (mw _ obs); [|intros [= <- <-]; auto]. destruct (ui_imu s) as [imu|]; [|intros [= <- <-]; auto].
  destruct (negb _); [intros [= <- <-]; auto|]. destruct (mw _ imu); [|intros [= <- <-]; auto]. destruct (dround _) as [ms|]; [|discriminate].
  destruct (s32_ok ms); [|discriminate]. intros [= <- <-]. split; [reflexivity|]. right. apply Bool.andb_true_iff in FT. do 4 eexists. split; [reflexivity|]. tauto.
Qed.
Lemma status_out s m s1 out : handle_nav_status mw s m = Some (s1, out) -> out = [] \/ exists w ms, out = [UOffset w ms 0 0].
Proof. intros H. destruct (status_cases _ _ _ _ H) as [_ [->|(w & ms & _ & _ & -> & _)]]; [auto|right; eauto]. Qed.
Lemma sat_loop_off l : forall az ms out, sat_loop l az ms = Some out -> forall a b c d, ~ In (UOffset a b c d) out.
Proof.
  induction l as [|x l IH]; intros az ms out E a b c d; cbn [sat_loop] in E.
  - injection E as <-. intros I. apply in_app_or in I. destruct I as [I|I]; [destruct (0 <? len az)|destruct (0 <? len ms)]; try exact I; destruct I as [I|[]]; discriminate I.
  - destruct (azel_of x) as [y|]; [|discriminate]. destruct (meas_of x) as [z|]; [|discriminate]. cbv zeta in E.
    match type of E with match sat_loop l ?u ?v with _ => _ end = _ => destruct (sat_loop l u v) as [o|] eqn:E2; [|discriminate] end.
    injection E as <-. intros I. apply in_app_or in I. destruct I as [I|I].
    { match type of I with In _ (if ?b then _ else _) => destruct b end; [|exact I]. destruct I as [I|[]]; discriminate I. }
    apply in_app_or in I. destruct I as [I|I]. { match type of I with In _ (if ?b then _ else _) => destruct b end; [|exact I]. destruct I as [I|[]]; discriminate I. }
    exact (IH _ _ _ E2 _ _ _ _ I).
Qed.
(** the time fields of the state and the offsets *)
Lemma step_times g s f g1 s1 out : ustep g s f = Some (g1, s1, out) ->
  ui_imu s1 = ui_imu s /\ (ui_week s = true -> ui_week s1 = true) /\ (~ is_frame 2 0x15 (EFrame f) -> ui_obs s1 = ui_obs s) /\ (ui_week s = false -> ui_obs s1 = ui_obs s) /\
  (ui_week s = false -> (forall m r, decode_nav_status f = Ok (m, r) -> ~ time_known m) -> ui_week s1 = false) /\
  (forall w ms us fl, In (UOffset w ms us fl) out ->
     exists m r obs imu, decode_nav_status f = Ok (m, r) /\ fix_known m /\ time_known m /\ ui_obs s = Some obs /\ ui_imu s = Some imu /\ us = 0 /\ fl = 0 /\ out = [UOffset w ms 0 0]).
Proof.
  intros H. assert (TRIV : forall o, s1 = s -> out = o -> (forall w ms us fl, ~ In (UOffset w ms us fl) o) -> 
    ui_imu s1 = ui_imu s /\ (ui_week s = true -> ui_week s1 = true) /\ (~ is_frame 2 0x15 (EFrame f) -> ui_obs s1 = ui_obs s) /\ (ui_week s = false -> ui_obs s1 = ui_obs s) /\
    (ui_week s = false -> (forall m r, decode_nav_status f = Ok (m, r) -> ~ time_known m) -> ui_week s1 = false) /\
    (forall w ms us fl, In (UOffset w ms us fl) out ->
     exists m r obs imu, decode_nav_status f = Ok (m, r) /\ fix_known m /\ time_known m /\ ui_obs s = Some obs /\ ui_imu s = Some imu /\ us = 0 /\ fl = 0 /\ out = [UOffset w ms 0 0])).
  { intros o -> -> N. split; [reflexivity|]. split; [auto|]. split; [auto|]. split; [auto|]. split; [auto|]. intros w ms us fl I. destruct (N _ _ _ _ I). }
  revert H. unfold unav_step. destruct (Z.ltb_spec (len f) 2) as [L|L].
  { intros [= _ <- <-]. apply (TRIV []); auto. }
  destruct f as [|c [|i r]]; try (cbn in L; lia). change (znth 0 0 (c :: i :: r)) with c. change (znth 0 1 (c :: i :: r)) with i. cbv zeta.
  destruct ((c =? 40) && (i =? 0)).
  { destruct (decode_hnr_pvt _) as [[m q]| | |]; try (intros [= _ <- <-]; apply (TRIV []); solve [auto]). unfold handle_hnr_pvt. destruct (times10 _); [|discriminate]. intros [= _ <- <-].
    eapply TRIV; [reflexivity|reflexivity|]. intros w ms us fl I. destruct (ui_hnr s); [|exact I]. destruct I as [I|[I|[]]]; discriminate I. }
  destruct (Z.eqb_spec c 1) as [->|NC].
  { destruct (Z.eqb_spec i 5) as [->|N5].
    { destruct (decode_nav_att _) as [[m q]| | |]; try (intros [= _ <- <-]; apply (TRIV []); solve [auto]). destruct (fill_orient g m); [|discriminate]. intros [= _ <- <-]. clear TRIV. cbn [ui_imu ui_week ui_obs].
      split; [reflexivity|]. split; [auto|]. split; [auto|]. split; [auto|]. split; [auto|]. intros w ms us fl I. destruct (ui_hnr s); [destruct I|]. destruct I as [I|[]]; discriminate I. }
    destruct (Z.eqb_spec i 7) as [->|N7].
    { destruct (decode_nav_pvt _) as [[m q]| | |]; try (intros [= _ <- <-]; apply (TRIV []); solve [auto]). unfold fill_pos. intros [= _ <- <-]. eapply TRIV; [reflexivity|reflexivity|].
      intros w ms us fl I. destruct (ui_hnr s); [exact I|]. destruct I as [I|[]]; discriminate I. }
    destruct (i =? 17).
    { destruct (decode_nav_velecef _) as [[m q]| | |]; try (intros [= _ <- <-]; apply (TRIV []); solve [auto]). unfold fill_vel. destruct (times10 _); [|discriminate]. destruct (times10 _); [|discriminate]. destruct (times10 _); [|discriminate].
      intros [= _ <- <-]. eapply TRIV; [reflexivity|reflexivity|]. intros w ms us fl [I|[]]; discriminate I. }
    destruct (i =? 53).
    { destruct (decode_nav_sat _) as [[m q]| | |]; try (intros [= _ <- <-]; apply (TRIV []); solve [auto]). destruct (handle_nav_sat m) as [o|] eqn:H; [|discriminate]. intros [= _ <- <-]. eapply TRIV; [reflexivity|reflexivity|].
      exact (sat_loop_off _ _ _ _ H). }
    destruct (Z.eqb_spec i 3) as [->|]; [|intros [= _ <- <-]; apply (TRIV []); auto].
    destruct (decode_nav_status _) as [[m q]| | |] eqn:DE; try (intros [= _ <- <-]; apply (TRIV []); solve [auto]). clear TRIV. destruct (handle_nav_status mw s m) as [[s2 o]|] eqn:E; [|discriminate]. intros [= _ <- <-].
    destruct (status_cases _ _ _ _ E) as [-> OUT].
    split; [destruct (time_good m); reflexivity|]. split; [destruct (time_good m); auto|]. split; [destruct (time_good m); auto|]. split; [destruct (time_good m); auto|].
    split. { intros W N. specialize (N m q eq_refl). rewrite <- time_good_spec in N. destruct (time_good m); [congruence|exact W]. }
    intros w ms us fl I. destruct OUT as [->|(w' & ms' & obs & imu & -> & FG & TG & OB & IM)]; [destruct I|]. destruct I as [I|[]]. injection I as <- <- <- <-.
    exists m, q, obs, imu. apply fix_good_spec in FG. apply time_good_spec in TG. tauto. }
  destruct ((c =? 2) && (i =? 21)) eqn:E2.
  { apply Bool.andb_true_iff in E2. rewrite !Z.eqb_eq in E2. destruct E2 as [-> ->].
    destruct (decode_rawx _) as [[m q]| | |]; try (intros [= _ <- <-]; apply (TRIV []); solve [auto]). intros [= _ <- <-]. clear TRIV. unfold rawx_time.
    assert (FR : is_frame 2 21 (EFrame (2 :: 21 :: r))) by (exists r; reflexivity).
    destruct (ui_week s) eqn:W; [|rewrite !Bool.andb_false_r; split; [reflexivity|]; split; [discriminate|]; split; [reflexivity|]; split; [reflexivity|]; split; [auto|]; intros ? ? ? ? []].
    destruct (_ && _); cbn [ui_imu ui_week ui_obs]; (split; [reflexivity|]; split; [auto|]; split; [intros NF; contradiction|]; split; [discriminate|]; split; [discriminate|]; intros ? ? ? ? []). }
  destruct ((c =? 10) && (i =? 9)).
  - intros [= _ <- <-]. eapply TRIV; [reflexivity|reflexivity|]. unfold handle_mon_hw. intros w ms us fl I. destruct (_ <? _); [exact I|]. destruct (_ <? _); [|exact I]. destruct I as [I|[]]; discriminate I.
  - intros [= _ <- <-]. apply (TRIV []); auto.
Qed.
Lemma offset_only g s f g1 s1 out w ms us fl : ustep g s f = Some (g1, s1, out) -> In (UOffset w ms us fl) out ->
  exists m r obs imu, decode_nav_status f = Ok (m, r) /\ fix_known m /\ time_known m /\ ui_obs s = Some obs /\ ui_imu s = Some imu /\ us = 0 /\ fl = 0 /\ out = [UOffset w ms 0 0].
Proof. intros H. apply (step_times _ _ _ _ _ _ H). Qed.
Lemma proc_times k es : forall g ss g1 ss1 out, proc g ss es = Some (g1, ss1, out) ->
  ui_imu (ss1 k) = last_imu k es (ui_imu (ss k)) /\ (ui_week (ss k) = true -> ui_week (ss1 k) = true) /\ ((forall e, In (k, e) es -> ~ is_frame 2 0x15 e) -> ui_obs (ss1 k) = ui_obs (ss k)).
Proof.
  induction es as [|[j e] es IH]; intros g ss g1 ss1 out R; cbn [uproc] in R.
  - injection R as <- <- _. auto.
  - destruct (uev_step mw g (ss j) e) as [[[g2 s2] o]|] eqn:E; [|discriminate].
    destruct (proc g2 (fun i => if i =? j then s2 else ss i) es) as [[[g3 ss3] o3]|] eqn:E3; [|discriminate]. injection R as <- <- _.
    destruct (IH _ _ _ _ _ E3) as (A & B & C). clear IH E3.
    assert (K : ui_imu s2 = match e with EImu t => Some t | _ => ui_imu (ss j) end /\ (ui_week (ss j) = true -> ui_week s2 = true) /\ (~ is_frame 2 0x15 e -> ui_obs s2 = ui_obs (ss j))).
    { destruct e as [f|b|t]; cbn [uev_step] in E; [destruct (step_times _ _ _ _ _ _ E) as (K1 & K2 & K3 & _); auto|injection E as <- <- _; auto|injection E as <- <- _; auto]. }
    destruct K as (K1 & K2 & K3). rewrite A. split; [|split].
    + cbn [last_imu]. destruct (Z.eqb_spec k j) as [->|NE]; [rewrite K1; destruct e; [reflexivity|reflexivity|rewrite Z.eqb_refl; reflexivity]|].
      destruct e; [reflexivity|reflexivity|]. destruct (Z.eqb_spec j k); [lia|reflexivity].
    + intros W. apply B. destruct (Z.eqb_spec k j) as [->|NE]; auto.
    + intros N. rewrite C by (intros e' I; apply N; right; exact I). destruct (Z.eqb_spec k j) as [->|NE]; [|reflexivity]. apply K3. apply N. left. reflexivity.
Qed.
Lemma head_rawx m : rawx_fits m -> exists t, encode_rawx m = 2 :: 0x15 :: t.
Proof. intros (A & B & _). unfold encode_rawx. rewrite A, B. eexists. reflexivity. Qed.
Lemma step_rawx g s m r : rawx_fits m -> ustep g s (encode_rawx m ++ r) = Some (g, rawx_time s m, []).
Proof.
  intros F. destruct (head_rawx m F) as [t H]. unfold unav_step. rewrite H; cbn [app]; rewrite len_ge2; cbn [znth Z.ltb Z.eqb Z.to_nat nth Z.compare Pos.eqb andb]; rewrite app_comm_cons, app_comm_cons, <- H.
  rewrite (codec_round_trip _ _ _ rawx_codec _ _ F). reflexivity.
Qed.
Lemma status_history g ss es1 es2 es3 k m0 r0 rx r1 g1 ss1 out1 :
  proc g ss (es1 ++ (k, EFrame (encode_nav_status m0 ++ r0)) :: es2 ++ (k, EFrame (encode_rawx rx ++ r1)) :: es3) = Some (g1, ss1, out1) ->
  nav_status_fits m0 -> time_known m0 -> rawx_fits rx -> 1 <= rx_num_meas rx -> 1 <= rx_rcv_wn rx < 32000 ->
  (forall e, In (k, e) es3 -> ~ is_frame 2 0x15 e) ->
  ui_obs (ss1 k) = Some (rx_rcv_wn rx, dofbits (rx_rcv_tow rx)) /\
  ui_imu (ss1 k) = last_imu k (es1 ++ (k, EFrame (encode_nav_status m0 ++ r0)) :: es2 ++ (k, EFrame (encode_rawx rx ++ r1)) :: es3) (ui_imu (ss k)).
Proof.
  intros R F0 T0 FX NM WN NX. split; [|exact (proj1 (proc_times k _ _ _ _ _ _ R))].
  apply proc_app in R. destruct R as (ga & sa & oa & ob & Ra & Rb & ->). clear Ra. cbn [uproc uev_step] in Rb. rewrite (step_status mw ga (sa k) m0 r0 F0) in Rb.
  destruct (handle_nav_status mw (sa k) m0) as [[s2 o]|] eqn:E; [|discriminate]. destruct (status_cases _ _ _ _ E) as [-> _]. rewrite (proj2 (time_good_spec m0) T0) in Rb.
  match type of Rb with match proc ?gg ?sss ?l with _ => _ end = _ => destruct (proc gg sss l) as [[[g4 ss4] o4]|] eqn:R4; [|discriminate] end. injection Rb as <- <- _.
  apply proc_app in R4. destruct R4 as (gc & sc & oc & od & Rc & Rd & ->). destruct (proc_times k _ _ _ _ _ _ Rc) as (_ & W & _). rewrite Z.eqb_refl in W. specialize (W eq_refl).
  cbn [uproc uev_step] in Rd. rewrite (step_rawx gc (sc k) rx r1 FX) in Rd.
  match type of Rd with match proc ?gg ?sss ?l with _ => _ end = _ => destruct (proc gg sss l) as [[[g5 ss5] o5]|] eqn:R5; [|discriminate] end. injection Rd as <- <- _.
  destruct (proc_times k _ _ _ _ _ _ R5) as (_ & _ & O). rewrite (O NX), Z.eqb_refl. unfold rawx_time. rewrite W.
  destruct (Z.eqb_spec (rx_num_meas rx) 0); [lia|]. destruct (Z.eqb_spec (rx_rcv_wn rx) 0); [lia|]. cbn [negb andb ui_obs]. rewrite s16_small by lia. reflexivity.
Qed.
Lemma week_unknown es : forall g ss g1 ss1 out k, proc g ss es = Some (g1, ss1, out) -> ui_week (ss k) = false -> ui_obs (ss k) = None ->
  (forall f m r, In (k, EFrame f) es -> decode_nav_status f = Ok (m, r) -> ~ time_known m) -> ui_week (ss1 k) = false /\ ui_obs (ss1 k) = None /\ forall w ms us fl, ~ In (k, UOffset w ms us fl) out.
Proof.
  induction es as [|[j e] es IH]; intros g ss g1 ss1 out k R W O N; cbn [uproc] in R.
  - injection R as <- <- <-. auto.
  - destruct (uev_step mw g (ss j) e) as [[[g2 s2] o]|] eqn:E; [|discriminate].
    destruct (proc g2 (fun i => if i =? j then s2 else ss i) es) as [[[g3 ss3] o3]|] eqn:E3; [|discriminate]. injection R as <- <- <-.
    assert (K : j = k -> ui_week s2 = false /\ ui_obs s2 = None /\ forall w ms us fl, ~ In (UOffset w ms us fl) o).
    { intros ->. destruct e as [f|b|t]; cbn [uev_step] in E; [|injection E as <- <- <-; auto|injection E as <- <- <-; auto].
      destruct (step_times _ _ _ _ _ _ E) as (_ & _ & _ & K4 & K5 & K6). rewrite (K4 W), (K5 W); [|intros m r D; apply (N f m r); [left; reflexivity|exact D]]. split; [reflexivity|]. split; [exact O|].
      intros w ms us fl I. destruct (K6 _ _ _ _ I) as (m & r & obs & imu & _ & _ & _ & OB & _). congruence. }
    assert (J : ui_week ((fun i => if i =? j then s2 else ss i) k) = false /\ ui_obs ((fun i => if i =? j then s2 else ss i) k) = None).
    { cbv beta. destruct (Z.eqb_spec k j) as [->|NE]; [destruct (K eq_refl) as (A & B & _)|]; auto. }
    destruct (IH _ _ _ _ _ k E3 (proj1 J) (proj2 J)) as (A & B & C). { intros f m r I. apply (N f m r). right. exact I. }
    split; [exact A|]. split; [exact B|]. intros w ms us fl I. apply in_app_or in I. destruct I as [I|I]; [|exact (C _ _ _ _ I)].
    apply in_map_iff in I. destruct I as (x & Q & I). injection Q as -> ->. destruct (K eq_refl) as (_ & _ & D). exact (D _ _ _ _ I).
Qed.
End S.
