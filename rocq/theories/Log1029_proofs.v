From Verif Require Import Base Log1029_model.

Lemma log_1029_form text : len text <= 255 -> exists n, log_1029 text = Some (RTCM_LOG_PREAMBLE ++ take n text) /\
  (if len text <? 248 then n = len text else
     n = if (Z.land (znth 0 247 text) 0xE0 =? 0xE0) || (Z.land (znth 0 247 text) 0xE0 =? 0xC0) then 247 else 248).
Proof.
  intros H. pose proof (len_nonneg text) as H0. unfold log_1029, SBP_MSG_LOG_TEXT_MAX, SBP_MAX_PAYLOAD_LEN. change (len RTCM_LOG_PREAMBLE) with 6.
  rewrite (Z.mod_small (Z.min 254 (6 + len text))) by lia. destruct (Z.ltb_spec (len text) 248) as [L|L].
  - replace (Z.min 254 (6 + len text)) with (6 + len text) by lia. destruct (Z.eqb_spec (6 + len text) 254); [lia|].
    destruct (Z.leb_spec 255 (6 + len text)); [lia|]. exists (len text). split; [|reflexivity]. f_equal.
    replace (6 + len text - 6) with (len text) by lia. rewrite take_all; [reflexivity|]. rewrite len_app. change (len RTCM_LOG_PREAMBLE) with 6.
    rewrite take_all by lia. lia.
  - replace (Z.min 254 (6 + len text)) with 254 by lia. change (254 =? 254) with true. cbv iota. change (254 - 1) with 253. change (254 - 6) with 248.
    rewrite (znth_app_r 0 253 RTCM_LOG_PREAMBLE) by (cbn; lia). change (253 - len RTCM_LOG_PREAMBLE) with 247. rewrite znth_take by lia.
    set (b := znth 0 247 text).
    assert (Q : (Z.land b 248 =? 240) || (Z.land b 224 =? 224) || (Z.land b 224 =? 192) = (Z.land b 224 =? 224) || (Z.land b 224 =? 192)).
    { destruct (Z.eqb_spec (Z.land b 248) 240) as [E|E]; [|reflexivity]. cbn [orb]. symmetry. apply orb_true_iff. left. apply Z.eqb_eq.
      assert (Z.land (Z.land b 248) 224 = 224) by (rewrite E; reflexivity). rewrite <- Z.land_assoc in H1. exact H1. }
    rewrite Q.
    assert (T : forall n, 0 <= n <= 248 -> take (6 + n) (RTCM_LOG_PREAMBLE ++ take 248 text) = RTCM_LOG_PREAMBLE ++ take n text).
    { intros n Hn. rewrite take_app_r by (change (len RTCM_LOG_PREAMBLE) with 6; lia). change (len RTCM_LOG_PREAMBLE) with 6. replace (6 + n - 6) with n by lia. rewrite take_take, Z.min_l by lia. reflexivity. }
    destruct ((Z.land b 224 =? 224) || (Z.land b 224 =? 192)) eqn:W.
    + change (255 <=? 253) with false. cbv iota. exists 247. split; [|reflexivity]. f_equal. apply (T 247). lia.
    + assert (F : (Z.land b 248 =? 240) = false /\ (Z.land b 224 =? 224) = false).
      { apply orb_false_iff in W. destruct W as [W1 W2]. rewrite W1, W2 in Q. rewrite !orb_false_r in Q. auto. }
      destruct F as [-> ->]. cbn [orb]. change (255 <=? 254) with false. cbv iota. exists 248. split; [|reflexivity]. f_equal. apply (T 248). lia.
Qed.

(** characters of one or two code units *)
Definition char2 (c : list Z) : Prop := (exists b, c = [b] /\ 0 <= b < 0x80) \/ (exists l k, c = [l; k] /\ 0xC0 <= l < 0xE0 /\ 0x80 <= k < 0xC0).
Lemma land_e0 b : 0 <= b < 256 -> Z.land b 0xE0 = b / 32 * 32.
Proof.
  intros H. change 0xE0 with (Z.shiftl (Z.ones 3) 5). apply Z.bits_inj'. intros n Hn.
  rewrite Z.land_spec, Z.shiftl_spec by lia. change 32 with (2 ^ 5). rewrite <- Z.shiftr_div_pow2, <- Z.shiftl_mul_pow2 by lia. rewrite Z.shiftl_spec by lia.
  destruct (Z.ltb_spec n 5).
  - rewrite !(Z.testbit_neg_r _ (n - 5)) by lia. apply andb_false_r.
  - rewrite Z.shiftr_spec by lia. replace (n - 5 + 5) with n by lia. destruct (Z.ltb_spec (n - 5) 3).
    + rewrite Z.ones_spec_low by lia. apply andb_true_r.
    + rewrite Z.ones_spec_high by lia. rewrite (testbit_small b n 8) by lia. reflexivity.
Qed.
Lemma lead2 b : 0 <= b < 256 -> (Z.land b 0xE0 =? 0xE0) || (Z.land b 0xE0 =? 0xC0) = (0xC0 <=? b).
Proof.
  intros H. rewrite land_e0 by exact H. pose proof (Z.div_mod b 32 ltac:(lia)). pose proof (Z.mod_pos_bound b 32 ltac:(lia)).
  destruct (Z.leb_spec 0xC0 b); [apply orb_true_iff; rewrite !Z.eqb_eq|apply orb_false_iff; rewrite !Z.eqb_neq]; lia.
Qed.
(** cutting after n units: at a character boundary, or just after a two-unit character's first unit *)
Lemma cut_text cs : Forall char2 cs -> forall n, 0 < n <= len (concat cs) ->
  (exists a r, cs = a ++ r /\ len (concat a) = n /\ 0 <= znth 0 (n - 1) (concat cs) < 0xC0) \/
  (exists a r, cs = a ++ r /\ len (concat a) = n - 1 /\ 0xC0 <= znth 0 (n - 1) (concat cs) < 256).
Proof.
  intros H. induction H as [|c cs Hc H IH]; intros n Hn; [cbn in Hn; lia|]. cbn [concat] in *. rewrite len_app in Hn.
  destruct Hc as [(b & -> & Hb)|(l & k & -> & Hl & Hk)].
  - change (len [b]) with 1 in *. destruct (Z.eq_dec n 1) as [->|N].
    + left. exists [[b]], cs. split; [reflexivity|]. split; [reflexivity|]. cbn. lia.
    + destruct (IH (n - 1) ltac:(lia)) as [(a & r & -> & L & Z0)|(a & r & -> & L & Z0)]; [left|right]; exists ([b] :: a), r; (split; [reflexivity|]);
        cbn [concat app]; (split; [rewrite len_cons; lia|]); rewrite znth_cons by lia; exact Z0.
  - change (len [l; k]) with 2 in *. destruct (Z.eq_dec n 1) as [->|N1]; [|destruct (Z.eq_dec n 2) as [->|N2]].
    + right. exists [], ([l; k] :: cs). split; [reflexivity|]. split; [reflexivity|]. cbn. lia.
    + left. exists [[l; k]], cs. split; [reflexivity|]. split; [reflexivity|]. change (0 <= k < 192). lia.
    + destruct (IH (n - 2) ltac:(lia)) as [(a & r & -> & L & Z0)|(a & r & -> & L & Z0)]; [left|right]; exists ([l; k] :: a), r; (split; [reflexivity|]);
        cbn [concat app]; (split; [rewrite !len_cons; lia|]); rewrite !znth_cons by lia; replace (n - 1 - 1 - 1) with (n - 2 - 1) by lia; exact Z0.
Qed.
Lemma two_unit_text cs : Forall char2 cs -> len (concat cs) <= 255 -> exists a r, cs = a ++ r /\ log_1029 (concat cs) = Some (RTCM_LOG_PREAMBLE ++ concat a).
Proof.
  intros H L. destruct (log_1029_form (concat cs) L) as (n & -> & E). destruct (Z.ltb_spec (len (concat cs)) 248).
  - subst n. exists cs, []. rewrite app_nil_r, take_all by lia. auto.
  - assert (TK : forall a r, cs = a ++ r -> take (len (concat a)) (concat cs) = concat a) by (intros a r ->; rewrite concat_app; apply take_app_exact).
    destruct (cut_text cs H 248 ltac:(lia)) as [(a & r & S & La & Z0)|(a & r & S & La & Z0)]; change (248 - 1) with 247 in *; rewrite lead2 in E by lia;
      destruct (Z.leb_spec 0xC0 (znth 0 247 (concat cs))); try lia; subst n; exists a, r; (split; [exact S|]); f_equal; f_equal; rewrite <- La; eapply TK; exact S.
Qed.
