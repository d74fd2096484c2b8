(** Lemmas for C47: the satellite lists. *)
From Coq Require Import String Sorting.Sorted Sorting.Permutation.
From Verif Require Import Base Signals_model RtcmMsm_model RtcmLegacy_model Sbp2Msm_model NmeaText_model NmeaTime_proofs Nmea_model Nmea_spec NmeaSend_proofs NmeaLists_spec.
Open Scope Z_scope.
Open Scope list_scope.

(** ** decimal numbers *)
Lemma dec_value_app a b : dec_value (a ++ [b]) = 10 * dec_value a + (b - 48).
Proof. unfold dec_value. rewrite fold_left_app. reflexivity. Qed.
Lemma dec_fuel_value f : forall n, 0 <= n < 2 ^ Z.of_nat f -> (0 < f)%nat -> dec_value (dec_fuel f n) = n /\ 1 <= len (dec_fuel f n) /\ (10 <= n -> hd 0 (dec_fuel f n) <> 48) /\ (n < 10 -> len (dec_fuel f n) = 1).
Proof.
  assert (P : forall f n, 0 < n < 2 ^ Z.of_nat f -> hd 0 (dec_fuel f n) <> 48 /\ 1 <= len (dec_fuel f n) /\ dec_value (dec_fuel f n) = n).
  { induction f0 as [|f0 IH]; intros n N; [cbn in N; lia|]. cbn [dec_fuel]. destruct (Z.ltb_spec n 10).
    - cbn [hd]. rewrite len_cons, (@len_nil Z). unfold dec_value. cbn [fold_left]. lia.
    - rewrite Nat2Z.inj_succ, Z.pow_succ_r in N by lia.
      assert (D : 0 < n / 10 < 2 ^ Z.of_nat f0).
      { split; [apply Z.div_str_pos; lia|]. apply Z.div_lt_upper_bound; [lia|]. lia. }
      destruct (IH _ D) as (I1 & I2 & I3). rewrite len_app, dec_value_app, I3, len_cons, (@len_nil Z).
      split; [destruct (dec_fuel f0 (n / 10)); [rewrite (@len_nil Z) in I2; lia|exact I1]|]. pose proof (Z.div_mod n 10). lia. }
  intros n N F. destruct (Z.eq_dec n 0) as [->|NZ].
  - destruct f; [lia|]. cbn. repeat split; lia.
  - destruct (P f n) as (A & B & C); [lia|]. split; [exact C|]. split; [exact B|]. split; [intros; exact A|].
    intros L. destruct f as [|f]; [lia|]. cbn [dec_fuel]. replace (n <? 10) with true by lia. reflexivity.
Qed.
Lemma dec_facts n : 0 <= n -> dec_value (dec n) = n /\ 1 <= len (dec n) /\ (1 < len (dec n) -> hd 0 (dec n) <> 48).
Proof.
  intros N. unfold dec. set (f := (Z.to_nat (Z.log2 (Z.max 1 n)) + 1)%nat).
  assert (B : 0 <= n < 2 ^ Z.of_nat f).
  { split; [exact N|]. unfold f. rewrite Nat2Z.inj_add, Z2Nat.id by apply Z.log2_nonneg. pose proof (Z.log2_spec (Z.max 1 n)). change (Z.of_nat 1) with 1. rewrite Z.add_1_r. lia. }
  destruct (dec_fuel_value f n B) as (A1 & A2 & A3 & A4); [unfold f; lia|]. repeat split; try assumption. intros L. apply A3. destruct (Z.ltb_spec n 10); [|lia]. specialize (A4 ltac:(lia)). lia.
Qed.
Lemma dec_value_zeros k l : dec_value (repeat 48 k ++ l) = dec_value l.
Proof. unfold dec_value. rewrite fold_left_app. f_equal. induction k; [reflexivity|]. cbn [repeat fold_left]. exact IHk. Qed.
Lemma fmt_u_number w n : 0 <= n -> number w n (fmt_u w n).
Proof.
  intros N. destruct (dec_facts n N) as (A & B & C). unfold number, fmt_u. rewrite len_pad. repeat split; try lia.
  - apply pad_digits. apply dec_digits. exact N.
  - unfold pad. rewrite dec_value_zeros. exact A.
  - intros H1 H2. unfold pad. replace (Z.to_nat (w - len (dec n))) with O by lia. cbn [repeat app]. apply C. lia.
Qed.
Lemma fmt_d_number w n : signed_number w n (fmt_d w n).
Proof.
  unfold signed_number, fmt_d. destruct (Z.ltb_spec n 0).
  - right. split; [exact H|]. eexists. split; [reflexivity|]. apply (fmt_u_number (w - 1) (- n)). lia.
  - left. split; [exact H|]. apply (fmt_u_number w n). exact H.
Qed.
Lemma fmt_d_nonneg w n : 0 <= n -> number w n (fmt_d w n).
Proof. intros N. unfold fmt_d. replace (n <? 0) with false by lia. apply (fmt_u_number w n). exact N. Qed.

Section L.
Variable code_of : Z -> code.

Lemma talker_sat g t : 0 <= t -> (talker code_of g = Some t <-> sat_of code_of t (nmea_id code_of g) g).
Proof.
  intros T. unfold talker, sat_of, nmea_id. destruct (cons_of (code_of (sg_code g))) as [c|].
  - split.
    + intros E. exists c. split; [reflexivity|]. destruct c; cbn [talker_of id_of]; apply Some_inj in E; (split; [lia|f_equal; lia]).
    + intros (c' & E & TT & _). injection E as <-. destruct c; cbn [talker_of] in TT; try contradiction; congruence.
  - split; [discriminate|]. intros (c' & E & _). discriminate E.
Qed.
Lemma sat_id g t id : sat_of code_of t id g -> id = nmea_id code_of g.
Proof.
  intros (c & E & TT & ->). unfold nmea_id. rewrite E. destruct c; cbn [talker_of id_of] in *; try contradiction; f_equal; lia.
Qed.
Lemma nmea_id_range g : 0 <= nmea_id code_of g < 65536. Proof. apply Z.mod_pos_bound. lia. Qed.

(** ** GSA *)
Lemma gsa_list_spec t : forall l acc r, 0 <= t -> gsa_list code_of t l acc = Some r -> NoDup acc -> len acc <= 12 ->
  NoDup r /\ len r <= 12 /\ (forall id, In id r -> In id acc \/ exists g, In g l /\ sat_of code_of t id g) /\
  (forall id, In id acc -> In id r) /\ (len r < 12 -> forall id g, In g l -> sat_of code_of t id g -> In id r) /\ Forall (known code_of) l.
Proof.
  induction l as [|g l IH]; intros acc r T H ND LN; cbn [gsa_list] in H.
  - apply Some_inj in H. subst r. split; [exact ND|]. split; [exact LN|]. split; [auto|]. split; [auto|]. split; [intros _ ? ? []|constructor].
  - destruct (talker code_of g) as [t'|] eqn:E; [|discriminate H].
    assert (K : known code_of g). { unfold known. intros N. unfold talker in E. rewrite N in E. discriminate E. }
    pose proof (len_nonneg acc).
    assert (X : exists acc', gsa_list code_of t l acc' = Some r /\ NoDup acc' /\ len acc' <= 12 /\ (forall id, In id acc' -> In id acc \/ sat_of code_of t id g) /\ incl acc acc' /\
      (len acc' < 12 -> t' = t -> In (nmea_id code_of g) acc') ).
    { destruct (Z.eqb_spec t' t) as [->|NT]; cbn [negb] in H.
      - unfold GSA_MAX_SV in H. destruct (Z.leb_spec 12 (len acc)).
        + exists acc. split; [exact H|]. split; [exact ND|]. split; [exact LN|]. split; [auto|]. split; [apply incl_refl|]. intros; lia.
        + destruct (existsb _ acc) eqn:EX.
          * exists acc. split; [exact H|]. split; [exact ND|]. split; [exact LN|]. split; [auto|]. split; [apply incl_refl|]. intros _ _. apply existsb_exists in EX. destruct EX as (x & X1 & X2). apply Z.eqb_eq in X2. rewrite X2. exact X1.
          * exists (acc ++ [nmea_id code_of g]). repeat split; [exact H| | | |intros x I; apply in_or_app; left; exact I|intros; apply in_or_app; right; left; reflexivity].
            -- apply (Permutation_NoDup (l := nmea_id code_of g :: acc)); [apply Permutation_cons_append|]. constructor; [|exact ND].
               intros I. assert (existsb (Z.eqb (nmea_id code_of g)) acc = true) by (apply existsb_exists; eexists; split; [exact I|apply Z.eqb_refl]). congruence.
            -- rewrite len_app, len_cons, (@len_nil Z). lia.
            -- intros id I. apply in_app_or in I. destruct I as [I|[<-|[]]]; [left; exact I|right; apply talker_sat; assumption].
      - exists acc. split; [exact H|]. split; [exact ND|]. split; [exact LN|]. split; [auto|]. split; [apply incl_refl|]. intros; contradiction. }
    destruct X as (acc' & G & N' & L' & I' & INC & M). destruct (IH acc' r T G N' L') as (R1 & R2 & R3 & R4 & R5 & R6). repeat split; try assumption.
    + intros id I. destruct (R3 id I) as [A|(g' & G1 & G2)]; [|right; exists g'; split; [right; exact G1|exact G2]]. destruct (I' id A) as [B|B]; [left; exact B|right; exists g; split; [left; reflexivity|exact B]].
    + intros id I. apply R4, INC, I.
    + intros LT id g' [<-|I] S; [|exact (R5 LT id g' I S)]. rewrite (sat_id _ _ _ S). apply R4. apply M.
      * assert (len acc' <= len r); [|lia]. unfold len. apply inj_le. apply NoDup_incl_length; [exact N'|exact R4].
      * rewrite (sat_id _ _ _ S) in S. apply talker_sat in S; [congruence|exact T].
    + constructor; assumption.
Qed.

Lemma insert_perm x l : Permutation (x :: l) (insert x l).
Proof. induction l as [|y l IH]; cbn [insert]; [reflexivity|]. destruct (x <=? y); [reflexivity|]. rewrite perm_swap. constructor. exact IH. Qed.
Lemma sort_perm l : Permutation l (sort l).
Proof. induction l as [|x l IH]; cbn [sort fold_right]; [reflexivity|]. rewrite <- insert_perm. constructor. exact IH. Qed.
Lemma insert_sorted x l : StronglySorted Z.le l -> StronglySorted Z.le (insert x l).
Proof.
  induction 1 as [|y l S IH F]; cbn [insert]; [repeat constructor|]. destruct (Z.leb_spec x y).
  - constructor; [constructor; assumption|]. constructor; [exact H|]. eapply Forall_impl; [|exact F]. intros; lia.
  - constructor; [exact IH|]. eapply Permutation_Forall; [apply insert_perm|]. constructor; [lia|exact F].
Qed.
Lemma sort_sorted l : StronglySorted Z.le (sort l).
Proof. induction l as [|x l IH]; cbn [sort fold_right]; [constructor|]. apply insert_sorted. exact IH. Qed.
Lemma sort_strict l : NoDup l -> StronglySorted Z.lt (sort l).
Proof.
  intros ND. assert (N : NoDup (sort l)) by (apply (Permutation_NoDup (sort_perm l)); exact ND). pose proof (sort_sorted l) as S. induction S as [|x r S IH F]; [constructor|].
  inversion N; subst. constructor; [auto|]. rewrite Forall_forall in *. intros y I. specialize (F y I). destruct (Z.eq_dec x y); [subst; contradiction|lia].
Qed.
Lemma gsa_numbers_sort t l r : 0 <= t -> gsa_list code_of t l [] = Some r -> gsa_numbers code_of t l (sort r).
Proof.
  intros T H. destruct (gsa_list_spec t l [] r T H) as (R1 & R2 & R3 & _ & R5 & _); [constructor|rewrite (@len_nil Z); lia|].
  assert (LE : len (sort r) = len r) by (unfold len; rewrite (Permutation_length (sort_perm r)); reflexivity).
  unfold gsa_numbers. rewrite LE. split; [apply sort_strict; exact R1|]. split; [exact R2|]. split.
  - intros id I. apply (Permutation_in id (Permutation_sym (sort_perm r))) in I. destruct (R3 id I) as [[]|X]. exact X.
  - intros L id g I S. apply (Permutation_in id (sort_perm r)). exact (R5 L id g I S).
Qed.
Lemma map_nth_seq {A B} (f : option A -> B) : forall (l : list A) k, (Datatypes.length l <= k)%nat ->
  List.map (fun i => f (nth_error l i)) (List.seq 0 k) = List.map (fun a => f (Some a)) l ++ repeat (f None) (k - Datatypes.length l).
Proof.
  induction l as [|a l IH]; intros k K.
  - cbn [List.map app Datatypes.length]. rewrite Nat.sub_0_r. clear K. generalize O. induction k as [|k IHk]; intros o; [reflexivity|]. cbn [List.seq List.map repeat]. rewrite IHk. destruct o; reflexivity.
  - destruct k as [|k]; [cbn in K; lia|]. cbn [List.seq List.map app Datatypes.length]. rewrite Nat.sub_succ. rewrite <- seq_shift, map_map. cbn [nth_error]. rewrite IH by (cbn in K; lia). reflexivity.
Qed.
Lemma concat_repeat1 k : List.concat (repeat [44] k) = repeat 44 k.
Proof. induction k as [|k IH]; [reflexivity|]. cbn [repeat List.concat app]. rewrite IH. reflexivity. Qed.
Lemma numbers_text l : (Datatypes.length l <= 12)%nat -> Forall (fun x => 0 <= x) l -> exists nums, Forall2 (number 2) l nums /\
  List.concat (List.map (fun i => match nth_error l i with Some id => fmt_d 2 id ++ str "," | None => str "," end) (List.seq 0 12)) =
  List.concat (List.map (fun n => n ++ [44]) nums) ++ repeat 44 (12 - Datatypes.length l).
Proof.
  intros K F. exists (List.map (fmt_d 2) l). split.
  - induction F; cbn [List.map]; constructor; [apply fmt_d_nonneg; assumption|]. apply IHF. cbn in K. lia.
  - rewrite (map_nth_seq (fun o => match o with Some id => fmt_d 2 id ++ str "," | None => str "," end)) by exact K. rewrite List.concat_app, map_map. f_equal. apply concat_repeat1.
Qed.
Variable ff : Z -> Z -> Double_model.dbl -> list Z.
Lemma gsa_print_text r d name : len r <= 12 -> Forall (fun x => 0 <= x) r ->
  gsa_text name (negb (pmode (d_flags d) =? 0)) (sort r) (List.concat (snd (gsa_print ff r d name))).
Proof.
  intros L F. assert (F' : Forall (fun x => 0 <= x) (sort r)) by (eapply Permutation_Forall; [apply sort_perm|exact F]).
  assert (L' : (Datatypes.length (sort r) <= 12)%nat) by (rewrite <- (Permutation_length (sort_perm r)); unfold len in L; lia).
  destruct (numbers_text (sort r) L' F') as (nums & N1 & N2). unfold gsa_text. exists nums.
  unfold gsa_print. cbv zeta. cbn [snd]. set (b := negb _). exists (if b then dop_text_gsa ff (d_pdop d) ++ str "," ++ dop_text_gsa ff (d_hdop d) ++ str "," ++ dop_text_gsa ff (d_vdop d) else str ",,"). split; [exact N1|].
  rewrite !List.concat_app. rewrite N2. cbn [List.concat]. rewrite !app_nil_r. change (str "$") with [36]. change (str "GSA,A,") with [71; 83; 65; 44; 65; 44]. change (str ",") with [44].
  rewrite <- !app_assoc. reflexivity.
Qed.

(** ** GSV *)
Lemma in_talker_spec t a : 0 <= t -> in_talker code_of t a = true <-> talker code_of (ae_sid a) = Some t.
Proof.
  intros T. unfold in_talker, talker. destruct (cons_of _) as [c|]; [|split; discriminate]. destruct c; rewrite ?Z.eqb_eq; split; try congruence; try discriminate; intros H; apply Some_inj in H; try lia.
Qed.
Lemma first_snr_spec g : forall ms q, known code_of g -> first_snr code_of g ms = Some q ->
  q = match find (fun m => same_sat code_of (me_sid m) g) ms with Some m => Some (snr_of (me_cn0 m)) | None => None end.
Proof.
  unfold known. intros ms q K. induction ms as [|m ms IH]; cbn [first_snr find]; intros H.
  - apply Some_inj in H. congruence.
  - unfold same_sat at 1. destruct (sg_sat (me_sid m) =? sg_sat g); cbn [andb].
    + destruct (cons_of (code_of (sg_code (me_sid m)))) as [c|]; [|discriminate H]. destruct (cons_of (code_of (sg_code g))) as [c'|]; [|discriminate H]. destruct (cons_eqb c c'); [apply Some_inj in H; congruence|exact (IH H)].
    + exact (IH H).
Qed.
Definition el_of (ms : list meas) (a : azel) : gsv_el :=
  mkgsv (ae_sid a) (ae_el a) (2 * ae_az a) (match find (fun m => same_sat code_of (me_sid m) (ae_sid a)) ms with Some m => Some (snr_of (me_cn0 m)) | None => None end).
Lemma gsv_list_spec t ms : 0 <= t -> forall l r, gsv_list code_of t l ms = Some r -> r = List.map (el_of ms) (filter (in_talker code_of t) l).
Proof.
  intros T. induction l as [|a l IH]; cbn [gsv_list filter List.map]; intros r H.
  - apply Some_inj in H. congruence.
  - pose proof (in_talker_spec t a T) as IT. destruct (talker code_of (ae_sid a)) as [t'|] eqn:E; [|discriminate H].
    assert (K : known code_of (ae_sid a)). { unfold known. intros N. unfold talker in E. rewrite N in E. discriminate E. }
    destruct (Z.eqb_spec t' (-1)) as [->|NT].
    + rewrite (IH r H). destruct (in_talker code_of t a); [|reflexivity]. destruct IT as [IT _]. specialize (IT eq_refl). apply Some_inj in IT. lia.
    + destruct (first_snr code_of (ae_sid a) ms) as [q|] eqn:S; [|discriminate H]. destruct (gsv_list code_of t l ms) as [r'|] eqn:GL; [|discriminate H]. apply Some_inj in H. subst r.
      rewrite (IH r' eq_refl). apply (first_snr_spec _ _ _ K) in S. destruct (Z.eqb_spec t' t) as [->|NE].
      * rewrite (proj2 IT eq_refl). cbn [List.map]. f_equal. unfold el_of. rewrite S. reflexivity.
      * destruct (in_talker code_of t a); [|reflexivity]. destruct IT as [IT _]. specialize (IT eq_refl). congruence.
Qed.
Lemma gsv_entry_item t ms a : 0 <= t -> in_talker code_of t a = true -> 0 <= ae_az a -> Forall (fun m => 0 <= me_cn0 m) ms -> gsv_item code_of t ms a (gsv_entry code_of (el_of ms a)).
Proof.
  intros T I A M. apply in_talker_spec in I; [|exact T]. apply talker_sat in I; [|exact T]. unfold gsv_item, gsv_entry, el_of. cbn [g_sid g_el g_az g_snr].
  pose proof (nmea_id_range (ae_sid a)).
  exists (nmea_id code_of (ae_sid a)), (fmt_u 2 (nmea_id code_of (ae_sid a))), (fmt_d 2 (ae_el a)), (fmt_u 3 (2 * ae_az a)).
  destruct (find _ ms) as [m|] eqn:FD.
  - exists (fmt_u 2 (snr_of (me_cn0 m))). split; [exact I|]. split; [apply fmt_u_number; lia|]. split; [apply fmt_d_number|]. split; [apply fmt_u_number; lia|].
    split; [|change (str ",") with [44]; reflexivity]. unfold snr_of. apply fmt_u_number. apply find_some in FD. destruct FD as [FD _]. rewrite Forall_forall in M. specialize (M m FD). apply Z.div_pos; lia.
  - exists []. split; [exact I|]. split; [apply fmt_u_number; lia|]. split; [apply fmt_d_number|]. split; [apply fmt_u_number; lia|]. split; [reflexivity|]. change (str ",") with [44]. reflexivity.
Qed.
Lemma talker_name_eq t : 0 <= t < 4 -> talker_str t = talker_name t.
Proof. intros T. assert (C : t = 0 \/ t = 1 \/ t = 2 \/ t = 3) by lia. destruct C as [->|[->|[->| ->]]]; reflexivity. Qed.
Lemma gsv_msgs_text t ms total count : 0 <= t < 4 -> 0 <= total -> 0 <= count -> Forall (fun m => 0 <= me_cn0 m) ms -> forall k i l, 0 <= i -> Forall (fun a => in_talker code_of t a = true /\ 0 <= ae_az a) l ->
  let xs := gsv_msgs code_of t total count k i (List.map (el_of ms) l) in
  Datatypes.length xs = k /\ Forall (fun x => fst x = 120) xs /\
  forall j x, nth_error xs j = Some x -> gsv_text code_of t total (i + Z.of_nat j + 1) count ms (sub l (4 * Z.of_nat j) 4) (List.concat (snd x)).
Proof.
  intros T TT C M. induction k as [|k IH]; intros i l I F; cbv zeta; cbn [gsv_msgs].
  - split; [reflexivity|]. split; [constructor|]. intros [|j] x; discriminate.
  - assert (DM : drop 4 (List.map (el_of ms) l) = List.map (el_of ms) (drop 4 l)) by (unfold drop; rewrite skipn_map; reflexivity).
    assert (TM : take 4 (List.map (el_of ms) l) = List.map (el_of ms) (take 4 l)) by (unfold take; rewrite firstn_map; reflexivity).
    assert (FD : Forall (fun a => in_talker code_of t a = true /\ 0 <= ae_az a) (drop 4 l) /\ Forall (fun a => in_talker code_of t a = true /\ 0 <= ae_az a) (take 4 l)).
    { rewrite <- (take_drop 4 l) in F. apply Forall_app in F. tauto. }
    rewrite DM. specialize (IH (i + 1) (drop 4 l) ltac:(lia) (proj1 FD)). cbv zeta in IH. destruct IH as (I1 & I2 & I3).
    split; [cbn [Datatypes.length]; rewrite I1; reflexivity|]. split; [constructor; [reflexivity|exact I2]|].
    intros [|j] x H; cbn [nth_error] in H.
    + apply Some_inj in H. subst x. cbn [snd]. unfold gsv_text.
      exists (fmt_u 0 total), (fmt_u 0 (i + 1)), (fmt_u 2 count), (List.map (gsv_entry code_of) (List.map (el_of ms) (take 4 l))).
      split; [apply fmt_u_number; lia|]. split; [replace (i + Z.of_nat 0 + 1) with (i + 1) by lia; apply fmt_u_number; lia|]. split; [apply fmt_u_number; lia|]. split.
      * unfold sub. change (drop (4 * Z.of_nat 0) l) with l. rewrite map_map. destruct FD as [_ FD]. revert FD. generalize (take 4 l). clear - ff T M. intros r FD. induction FD as [|a r [A1 A2] FD IHF]; cbn [List.map]; [constructor|]. constructor; [apply gsv_entry_item; assumption || lia|exact IHF].
      * rewrite List.concat_app. cbn [List.concat]. rewrite TM, app_nil_r. rewrite (talker_name_eq t T). change (str "$") with [36]. change (str "GSV,") with [71; 83; 86; 44]. change (str ",") with [44]. rewrite <- !app_assoc. reflexivity.
    + replace (i + Z.of_nat (S j) + 1) with (i + 1 + Z.of_nat j + 1) by lia. specialize (I3 j x H). unfold sub in *. rewrite drop_drop in I3 by lia. replace (4 * Z.of_nat (S j)) with (4 + 4 * Z.of_nat j) by lia. exact I3.
Qed.
Lemma gsv_print_text t ms l : 0 <= t < 4 -> Forall (fun m => 0 <= me_cn0 m) ms -> Forall (fun a => in_talker code_of t a = true /\ 0 <= ae_az a) l ->
  gsv_group code_of t ms l (List.map (fun x => List.concat (snd x)) (gsv_print code_of t (List.map (el_of ms) l))).
Proof.
  intros T M F. unfold gsv_print. cbv zeta. assert (LE : len (List.map (el_of ms) l) = len l) by (unfold len; rewrite map_length; reflexivity). rewrite LE. pose proof (len_nonneg l).
  assert (D : 0 <= (len l + 3) / 4) by (apply Z.div_pos; lia).
  destruct (gsv_msgs_text t ms ((len l + 3) / 4) (len l) T D ltac:(lia) M (Z.to_nat ((len l + 3) / 4)) 0 l ltac:(lia) F) as (X1 & _ & X3).
  assert (LM : forall (A B : Type) (f : A -> B) x, len (List.map f x) = len x) by (intros; unfold len; rewrite map_length; reflexivity).
  assert (LN : forall (A : Type) (x : list A) k, Datatypes.length x = k -> len x = Z.of_nat k) by (intros; subst; reflexivity).
  assert (LX : len (List.map (fun x => List.concat (snd x)) (gsv_msgs code_of t ((len l + 3) / 4) (len l) (Z.to_nat ((len l + 3) / 4)) 0 (List.map (el_of ms) l))) = (len l + 3) / 4)
    by (rewrite LM; exact (eq_trans (LN _ _ _ X1) (Z2Nat.id _ D))).
  unfold gsv_group. split; [exact LX|]. rewrite LX. intros i txt H1. rewrite nth_error_map in H1. destruct (nth_error _ i) as [x|] eqn:N; [|discriminate H1]. apply Some_inj in H1. subst txt. exact (X3 i x N).
Qed.
End L.
