From Verif Require Import Base Bitstring Bits_model Bits_proofs Crc RtcmMsm_model Signals_model ObsBuffer_spec Subframes_model Subframes_spec Subframes_proofs Subframes_run_proofs.

Lemma setp_other' {A} (m : Z -> A) p v q : q <> p -> setp m p v q = m q.
Proof. intros H. unfold setp. replace (q =? p) with false by lia. reflexivity. Qed.
Section L.
Variable gps_valid : Z -> list (list Z) -> Z -> bool.
Variable gal_ok : list (list Z) -> bool.
Variable bds_d2 : Z -> bool.
Notation step := (sfrbx_step gps_valid gal_ok bds_d2).
Notation run := (sfrbx_run gps_valid gal_ok bds_d2).

(** ** each satellite on its own *)
Definition proj (st : ephst) (g p : Z) : Z * slots :=
  if g =? 0 then (0, es_gps st p) else if g =? 3 then (0, es_bds st p) else if g =? 2 then (0, es_gal st p) else es_glo st p.
Definition sat_step (g p : Z) (x : Z * slots) (e : sfevent) : option ((Z * slots) * option eph_out) :=
  let ws := ev_words e in
  if g =? 0 then (if negb (prn_in cGPS p) then Some (x, None) else let (s, o) := gps_step gps_valid p (snd x) ws in Some ((0, s), o))
  else if g =? 3 then (if negb (prn_in cBDS p) then Some (x, None) else let (s, o) := bds_step bds_d2 p (snd x) ws in Some ((0, s), o))
  else if g =? 2 then (if negb (prn_in cGAL p) then Some (x, None) else let (s, o) := gal_step gal_ok p (snd x) ws in Some ((0, s), o))
  else (if (p =? 255) || negb (prn_in cGLO p) then Some (x, None) else glo_step p (ev_fcn e) (ev_leap e) x ws).
Lemma step_in st e g p : eph_gnss g -> from_sat g p e ->
  match step st e with
  | Some (st', o) => sat_step g p (proj st g p) e = Some (proj st' g p, o)
  | None => sat_step g p (proj st g p) e = None
  end.
Proof.
  intros Hg [<- <-]. unfold sfrbx_step, sat_step, proj.
  destruct Hg as [E | [E | [E | E]]]; rewrite E; cbn [Z.eqb Pos.eqb].
  - destruct (negb (prn_in cGPS (ev_prn e))); [reflexivity|]. cbn [snd]. destruct (gps_step _ _ _ _) as [s o]. cbn [es_gps]. rewrite setp_same. reflexivity.
  - destruct (negb (prn_in cGAL (ev_prn e))); [reflexivity|]. cbn [snd]. destruct (gal_step _ _ _ _) as [s o]. cbn [es_gal]. rewrite setp_same. reflexivity.
  - destruct (negb (prn_in cBDS (ev_prn e))); [reflexivity|]. cbn [snd]. destruct (bds_step _ _ _ _) as [s o]. cbn [es_bds]. rewrite setp_same. reflexivity.
  - destruct ((ev_prn e =? 255) || negb (prn_in cGLO (ev_prn e))); [reflexivity|]. destruct (glo_step _ _ _ _ _) as [[s o]|]; [|reflexivity]. cbn [es_glo]. rewrite setp_same. reflexivity.
Qed.
Lemma step_out st e st' o g p : (forall q, side_inv bds_d2 st q) -> eph_gnss g -> ~ from_sat g p e -> step st e = Some (st', o) ->
  proj st' g p = proj st g p /\ forall x, o = Some x -> out_sat x <> (g, p).
Proof.
  intros SI Hg N H. split.
  - revert H. unfold sfrbx_step, proj. unfold from_sat in N.
    destruct (ev_gnss e =? 0) eqn:G0.
    { destruct (negb (prn_in cGPS (ev_prn e))); [intros [= <- _]; reflexivity|]. destruct (gps_step _ _ _ _) as [s o1]. intros [= <- _]. cbn [es_gps es_bds es_gal es_glo].
      destruct (g =? 0) eqn:E; [|reflexivity]. rewrite (setp_other' (es_gps st) (ev_prn e) s p); [reflexivity|]. intros ->. apply N. lia. }
    destruct (ev_gnss e =? 3) eqn:G3.
    { destruct (negb (prn_in cBDS (ev_prn e))); [intros [= <- _]; reflexivity|]. destruct (bds_step _ _ _ _) as [s o1]. intros [= <- _]. cbn [es_gps es_bds es_gal es_glo].
      destruct (g =? 0); [reflexivity|]. destruct (g =? 3) eqn:E; [|reflexivity]. rewrite (setp_other' (es_bds st) (ev_prn e) s p); [reflexivity|]. intros ->. apply N. lia. }
    destruct (ev_gnss e =? 2) eqn:G2.
    { destruct (negb (prn_in cGAL (ev_prn e))); [intros [= <- _]; reflexivity|]. destruct (gal_step _ _ _ _) as [s o1]. intros [= <- _]. cbn [es_gps es_bds es_gal es_glo].
      destruct (g =? 0); [reflexivity|]. destruct (g =? 3); [reflexivity|]. destruct (g =? 2) eqn:E; [|reflexivity]. rewrite (setp_other' (es_gal st) (ev_prn e) s p); [reflexivity|]. intros ->. apply N. lia. }
    destruct (ev_gnss e =? 6) eqn:G6.
    { destruct ((ev_prn e =? 255) || negb (prn_in cGLO (ev_prn e))); [intros [= <- _]; reflexivity|]. destruct (glo_step _ _ _ _ _) as [[s o1]|]; [|discriminate]. intros [= <- _]. cbn [es_gps es_bds es_gal es_glo].
      destruct (g =? 0) eqn:Q0; [reflexivity|]. destruct (g =? 3) eqn:Q3; [reflexivity|]. destruct (g =? 2) eqn:Q2; [reflexivity|]. rewrite (setp_other' (es_glo st) (ev_prn e) s p); [reflexivity|]. intros ->. apply N. unfold eph_gnss in Hg. lia. }
    destruct (ev_gnss e =? 1); [|intros [= <- _]; reflexivity]. destruct (sbas_tow (ev_tow e)); intros [= <- _]; reflexivity.
  - destruct (step_spec _ _ _ _ _ _ _ SI H) as [_ S]. apply (S g p Hg). exact N.
Qed.
Fixpoint sat_run (g p : Z) (x : Z * slots) (es : list sfevent) : option ((Z * slots) * list eph_out) :=
  match es with
  | [] => Some (x, [])
  | e :: r => match sat_step g p x e with
              | None => None
              | Some (x1, o) => match sat_run g p x1 r with None => None | Some (x2, os) => Some (x2, olist o ++ os) end
              end
  end.
Lemma of_sat_spec g p e : of_sat g p e = true <-> from_sat g p e.
Proof. unfold of_sat, from_sat. lia. Qed.
Lemma about_spec g p o : about g p o = true <-> out_sat o = (g, p).
Proof. unfold about. destruct (out_sat o) as [a b]. cbn [fst snd]. split; [intros; f_equal; lia| intros [= -> ->]; lia]. Qed.
Lemma isolated g p h : eph_gnss g -> forall st st' os, (forall q, side_inv bds_d2 st q) -> run st h = Some (st', os) ->
  sat_run g p (proj st g p) (filter (of_sat g p) h) = Some (proj st' g p, filter (about g p) os).
Proof.
  intros Hg. induction h as [|e h IH]; intros st st' os SI; cbn [sfrbx_run filter].
  - intros [= <- <-]. reflexivity.
  - destruct (step st e) as [[st1 o]|] eqn:E; [|discriminate]. destruct (run st1 h) as [[st2 os2]|] eqn:ER; [|discriminate]. intros [= <- <-].
    destruct (step_spec _ _ _ _ _ _ _ SI E) as [SI1 SP]. specialize (IH _ _ _ SI1 ER).
    destruct (of_sat g p e) eqn:OE.
    + apply of_sat_spec in OE. pose proof (step_in st e g p Hg OE) as S. rewrite E in S. cbn [sat_run]. rewrite S, IH. f_equal. f_equal.
      destruct o as [x|]; [|reflexivity]. cbn [olist filter app]. destruct (SP g p Hg) as [_ SB]. destruct (SB OE) as (_ & OX & _). apply about_spec in OX. rewrite OX. reflexivity.
    + assert (N : ~ from_sat g p e) by (rewrite <- of_sat_spec; congruence).
      destruct (step_out _ _ _ _ g p SI Hg N E) as [PE OX]. rewrite PE in IH. rewrite IH. f_equal. f_equal.
      destruct o as [x|]; [|reflexivity]. cbn [filter]. destruct (about g p x) eqn:AB; [|reflexivity]. apply about_spec in AB. exfalso. exact (OX x eq_refl AB).
Qed.

(** ** at most one ephemeris per received part *)
Lemma subseq_snoc_skip {A} (l h : list A) x : subseq l h -> subseq l (h ++ [x]).
Proof. induction 1; cbn; constructor; assumption. Qed.
Lemma subseq_snoc {A} (l h : list A) x : subseq l h -> subseq (l ++ [x]) (h ++ [x]).
Proof.
  induction 1 as [h | y l h H IH | y l h H IH]; cbn [app].
  - induction h; cbn [app]; [constructor; constructor| constructor; assumption].
  - apply subseq_skip. exact IH.
  - apply subseq_cons. exact IH.
Qed.
Definition filled {A} (o : option A) : nat := match o with Some _ => 1%nat | None => 0%nat end.
Lemma used_once g p j h : eph_gnss g -> 1 <= j <= parts_needed g -> forall st os, run ephst_init h = Some (st, os) ->
  exists used, subseq used h /\ (forall e, In e used -> from_sat g p e /\ is_part g j (ev_words e)) /\
    (length (filter (about g p) os) + filled (slots_of st g p (j - 1)%Z) <= length used)%nat.
Proof.
  intros Hg Hj. induction h as [|e h IH] using rev_ind; intros st os.
  - cbn [sfrbx_run]. intros [= <- <-]. exists []. split; [constructor|]. split; [intros ? []|]. rewrite slots_init. cbn. lia.
  - rewrite run_snoc. intros (st1 & o1 & o & H1 & H2 & ->). destruct (IH _ _ H1) as (used & U1 & U2 & U3).
    destruct (step_spec _ _ _ _ _ _ _ (run_side _ _ _ _ _ _ H1) H2) as [_ S]. destruct (S g p Hg) as [SA SB]. clear S.
    rewrite filter_app, app_length.
    assert (FR : forall w, from_sat g p e -> fresh g (slots_of st1 g p) (ev_words e) (j - 1) w ->
      exists used, subseq used (h ++ [e]) /\ (forall e, In e used -> from_sat g p e /\ is_part g j (ev_words e)) /\
        (length (filter (about g p) o1) + 1 <= length used)%nat).
    { intros w F [[P _] | [Q _]].
      - exists (used ++ [e]). split; [apply subseq_snoc; exact U1|]. split; [|rewrite app_length; cbn [length]; lia].
        intros x Hx. apply in_app_or in Hx. destruct Hx as [Hx | [<- | []]]; [apply U2, Hx|]. split; [exact F|].
        apply part_index_spec in P; [|exact Hg]. replace (j - 1 + 1) with j in P by lia. exact P.
      - exists used. split; [apply subseq_snoc_skip; exact U1|]. split; [exact U2|]. rewrite Q in U3. cbn [filled] in U3. lia. }
    assert (KEEP : (length (filter (about g p) (olist o)) + filled (slots_of st g p (j - 1)%Z) <= filled (slots_of st1 g p (j - 1)%Z))%nat ->
      exists used, subseq used (h ++ [e]) /\ (forall e, In e used -> from_sat g p e /\ is_part g j (ev_words e)) /\
        (length (filter (about g p) o1) + length (filter (about g p) (olist o)) + filled (slots_of st g p (j - 1)%Z) <= length used)%nat).
    { intros K. exists used. split; [apply subseq_snoc_skip; exact U1|]. split; [exact U2|]. lia. }
    destruct (sat_dec (ev_gnss e) (ev_prn e) g p) as [E|E].
    + specialize (SB E). destruct o as [x|].
      * destruct SB as (_ & OX & NS & parts & _ & PF & _). rewrite NS. cbn [filled olist filter]. apply about_spec in OX. rewrite OX. cbn [length].
        destruct (FR (znth [] (j - 1) parts) E (PF (j - 1) ltac:(lia))) as (u & A & B & C). exists u. split; [exact A|]. split; [exact B|]. lia.
      * cbn [olist filter length]. destruct SB as [[_ Q] | [_ F]]; [apply KEEP; rewrite Q; cbn; lia|].
        destruct (slots_of st g p (j - 1)) as [w|] eqn:EW; [|apply KEEP; cbn; lia].
        destruct (FR w E (F _ _ EW)) as (u & A & B & C). exists u. split; [exact A|]. split; [exact B|]. cbn [filled]. lia.
    + destruct SA as [Q OX]; [unfold from_sat; tauto|]. apply KEEP. rewrite Q.
      destruct o as [x|]; cbn [olist filter length]; [|lia]. destruct (about g p x) eqn:AB; cbn [length]; [|lia].
      apply about_spec in AB. exfalso. exact (OX x eq_refl AB).
Qed.

(** ** a complete set is turned into an ephemeris *)
Lemma bds_live p s w1 w2 w3 : bds_d2 p = false -> is_part 3 1 w1 -> is_part 3 2 w2 -> is_part 3 3 w3 -> same_issue 3 [w1; w2; w3] ->
  let (s1, o1) := bds_step bds_d2 p s w1 in let (s2, o2) := bds_step bds_d2 p s1 w2 in let (s3, o3) := bds_step bds_d2 p s2 w3 in
  o1 <> None \/ o2 <> None \/ o3 <> None.
Proof.
  intros HD P1 P2 P3 SI. apply (bds_index_spec w1 0) in P1. apply (bds_index_spec w2 1) in P2. apply (bds_index_spec w3 2) in P3.
  unfold same_issue in SI. cbn [Z.eqb Pos.eqb] in SI. change (znth [] 0 [w1; w2; w3]) with w1 in SI. change (znth [] 1 [w1; w2; w3]) with w2 in SI.
  change (znth [] 2 [w1; w2; w3]) with w3 in SI. rewrite <- !lor_sow in SI.
  assert (R : 0 <= bds_sow w1) by (rewrite lor_sow; pose proof (field_range w1 0 4 8 ltac:(lia)); pose proof (field_range w1 1 18 12 ltac:(lia)); lia).
  assert (B1 : (604800 <=? bds_sow w1) = false) by lia.
  assert (B2 : (604800 <=? bds_sow w2) = false) by lia.
  assert (B3 : (604800 <=? bds_sow w3) = false) by lia.
  assert (Q1 : (bds_sow w1 =? (bds_sow w2 - 6) mod 2 ^ 32) = true) by (rewrite Z.mod_small by (change (2 ^ 32) with 4294967296; lia); lia).
  assert (Q2 : (bds_sow w2 =? (bds_sow w3 - 6) mod 2 ^ 32) = true) by (rewrite Z.mod_small by (change (2 ^ 32) with 4294967296; lia); lia).
  unfold bds_step at 1. rewrite HD, P1. cbv zeta. cbn [put Z.eqb Pos.eqb].
  unfold put at 1 2 3. cbn [Z.eqb Pos.eqb]. rewrite ?B1.
  assert (T : forall s', s' 0 = Some w1 -> let (s2, o2) := bds_step bds_d2 p s' w2 in let (s3, o3) := bds_step bds_d2 p s2 w3 in o2 <> None \/ o3 <> None).
  { intros s' H0. unfold bds_step at 1. rewrite HD, P2. cbv zeta. unfold put at 1 2 3. cbn [Z.eqb Pos.eqb]. rewrite H0.
    assert (T2 : forall s', s' 0 = Some w1 -> s' 1 = Some w2 -> let (s3, o3) := bds_step bds_d2 p s' w3 in o3 <> None).
    { intros s2 A0 A1. unfold bds_step. rewrite HD, P3. cbv zeta. unfold put at 1 2 3. cbn [Z.eqb Pos.eqb]. rewrite A0, A1, B1, B2, B3, Q1, Q2. cbn [negb orb]. discriminate. }
    assert (TT : forall s2 (o2 : option eph_out), s2 0 = Some w1 -> s2 1 = Some w2 -> let (s3, o3) := bds_step bds_d2 p s2 w3 in o2 <> None \/ o3 <> None).
    { intros s2 o2 A0 A1. specialize (T2 s2 A0 A1). destruct (bds_step bds_d2 p s2 w3). right. exact T2. }
    destruct (s' 2) as [c|] eqn:E2; [|apply TT; unfold put; cbn [Z.eqb Pos.eqb]; auto]. rewrite B1, B2.
    destruct (604800 <=? bds_sow c); [apply TT; unfold put; cbn [Z.eqb Pos.eqb]; auto|].
    rewrite Q1. cbn [negb orb]. destruct (negb _); [apply TT; unfold put; cbn [Z.eqb Pos.eqb]; auto|].
    destruct (bds_step bds_d2 p no_slots w3). left. discriminate. }
  assert (TT : forall s1 (o1 : option eph_out), s1 0 = Some w1 -> let (s2, o2) := bds_step bds_d2 p s1 w2 in let (s3, o3) := bds_step bds_d2 p s2 w3 in o1 <> None \/ o2 <> None \/ o3 <> None).
  { intros s1 o1 A0. specialize (T s1 A0). destruct (bds_step bds_d2 p s1 w2) as [s2 o2]. destruct (bds_step bds_d2 p s2 w3). right. exact T. }
  destruct (s 1) as [b|]; [|apply TT; reflexivity]. destruct (s 2) as [c|]; [|apply TT; reflexivity].
  destruct (604800 <=? bds_sow b); [apply TT; reflexivity|]. destruct (604800 <=? bds_sow c); [apply TT; reflexivity|].
  destruct (negb (bds_sow w1 =? _) || _); [apply TT; reflexivity|].
  destruct (bds_step bds_d2 p no_slots w2) as [s2 o2]. destruct (bds_step bds_d2 p s2 w3). left. discriminate.
Qed.

Lemma put_same s i v : put s i v i = v.
Proof. unfold put. rewrite Z.eqb_refl. reflexivity. Qed.
Lemma put_other s i v k : k <> i -> put s i v k = s k.
Proof. intros. unfold put. replace (k =? i) with false by lia. reflexivity. Qed.
Lemma gal_progress p s w i : gal_index w = Some i ->
  let (s', o) := gal_step gal_ok p s w in
  o <> None \/ (s' i = Some (take 8 w) /\ forall k v, s k = Some v -> k <> i -> i = 4 \/ k = 4 \/ gal_iodnav v = gal_iodnav w -> s' k = Some v).
Proof.
  intros Hi. unfold gal_step. rewrite Hi. cbv zeta.
  set (s0 := put s i (Some (take 8 w))). set (s1 := if i =? 4 then s0 else gal_keep (gal_iodnav w) s0).
  assert (K : s1 i = Some (take 8 w) /\ forall k v, s k = Some v -> k <> i -> i = 4 \/ k = 4 \/ gal_iodnav v = gal_iodnav w -> s1 k = Some v).
  { unfold s1. destruct (i =? 4) eqn:E4.
    - unfold s0. split; [apply put_same|]. intros k v H N _. rewrite put_other by exact N. exact H.
    - unfold gal_keep, s0. split.
      + rewrite put_same, iodnav_take, Z.eqb_refl. cbn [negb]. rewrite andb_false_r. reflexivity.
      + intros k v H N C. rewrite put_other by exact N. rewrite H. destruct C as [C | [C | C]]; [lia| |].
        * replace (k <? 4) with false by lia. reflexivity.
        * rewrite C, Z.eqb_refl. cbn [negb]. rewrite andb_false_r. reflexivity. }
  clearbody s1.
  destruct (s1 0); [|right; exact K]. destruct (s1 1); [|right; exact K]. destruct (s1 2); [|right; exact K].
  destruct (s1 3); [|right; exact K]. destruct (s1 4); [|right; exact K]. destruct (gal_ok _); [left; discriminate| right; exact K].
Qed.
Lemma gal_final p s w1 w2 w3 w4 w5 : gal_index w5 = Some 4 -> gal_ok (map gal_content [w1; w2; w3; w4; w5]) = true ->
  s 0 = Some (take 8 w1) -> s 1 = Some (take 8 w2) -> s 2 = Some (take 8 w3) -> s 3 = Some (take 8 w4) -> snd (gal_step gal_ok p s w5) <> None.
Proof.
  intros Hi HK H0 H1 H2 H3. unfold gal_step. rewrite Hi. cbv zeta. cbn [Z.eqb Pos.eqb].
  rewrite !put_other by lia. rewrite put_same, H0, H1, H2, H3. cbn [map]. rewrite !content_take. cbn [map] in HK. rewrite HK. discriminate.
Qed.
Lemma gal_live p s w1 w2 w3 w4 w5 : is_part 2 1 w1 -> is_part 2 2 w2 -> is_part 2 3 w3 -> is_part 2 4 w4 -> is_part 2 5 w5 ->
  same_issue 2 [w1; w2; w3; w4; w5] -> gal_ok (map gal_content [w1; w2; w3; w4; w5]) = true ->
  let (s1, o1) := gal_step gal_ok p s w1 in let (s2, o2) := gal_step gal_ok p s1 w2 in let (s3, o3) := gal_step gal_ok p s2 w3 in
  let (s4, o4) := gal_step gal_ok p s3 w4 in let (s5, o5) := gal_step gal_ok p s4 w5 in
  o1 <> None \/ o2 <> None \/ o3 <> None \/ o4 <> None \/ o5 <> None.
Proof.
  intros P1 P2 P3 P4 P5 SI OK. apply (gal_index_spec w1 0) in P1. apply (gal_index_spec w2 1) in P2. apply (gal_index_spec w3 2) in P3.
  apply (gal_index_spec w4 3) in P4. apply (gal_index_spec w5 4) in P5.
  assert (I : forall w, gal_iodnav w = field_of w 0 14 10) by (intros w; unfold gal_iodnav; apply fld_spec; reflexivity || lia).
  unfold same_issue in SI. cbn [Z.eqb Pos.eqb] in SI.
  pose proof (SI 1 ltac:(lia)) as I1. pose proof (SI 2 ltac:(lia)) as I2. pose proof (SI 3 ltac:(lia)) as I3. clear SI.
  change (field_of w2 0 14 10 = field_of w1 0 14 10) in I1. change (field_of w3 0 14 10 = field_of w1 0 14 10) in I2. change (field_of w4 0 14 10 = field_of w1 0 14 10) in I3.
  rewrite <- !I in I1, I2, I3. clear I.
  pose proof (gal_progress p s w1 0 P1) as G1. destruct (gal_step gal_ok p s w1) as [s1 o1].
  pose proof (gal_progress p s1 w2 1 P2) as G2. destruct (gal_step gal_ok p s1 w2) as [s2 o2].
  pose proof (gal_progress p s2 w3 2 P3) as G3. destruct (gal_step gal_ok p s2 w3) as [s3 o3].
  pose proof (gal_progress p s3 w4 3 P4) as G4. destruct (gal_step gal_ok p s3 w4) as [s4 o4].
  pose proof (gal_final p s4 w1 w2 w3 w4 w5 P5 OK) as G5. destruct (gal_step gal_ok p s4 w5) as [s5 o5]. cbn [snd] in G5.
  destruct G1 as [G1|[A1 _]]; [tauto|]. destruct G2 as [G2|[A2 K2]]; [tauto|]. destruct G3 as [G3|[A3 K3]]; [tauto|]. destruct G4 as [G4|[A4 K4]]; [tauto|].
  right. right. right. right. apply G5.
  - apply K4; [|lia| rewrite iodnav_take; right; right; congruence]. apply K3; [|lia| rewrite iodnav_take; right; right; congruence]. apply K2; [exact A1| lia| rewrite iodnav_take; right; right; congruence].
  - apply K4; [|lia| rewrite iodnav_take; right; right; congruence]. apply K3; [exact A2|lia| rewrite iodnav_take; right; right; congruence].
  - apply K4; [exact A3|lia| rewrite iodnav_take; right; right; congruence].
  - exact A4.
Qed.

Lemma glo_progress p fcn leap id s w n : 1 <= n -> glo_number w = Some n ->
  exists s' o, glo_step p fcn leap (id, s) w = Some ((glo_superframe w, s'), o) /\
  (o <> None \/ (s' (n - 1) = Some w /\ forall k v, s k = Some v -> k <> n - 1 -> id = glo_superframe w -> s' k = Some v)).
Proof.
  intros Hn Hi. unfold glo_step. rewrite Hi.
  replace (if negb (id =? glo_superframe w) then (glo_superframe w, no_slots) else (id, s)) with (glo_superframe w, if negb (id =? glo_superframe w) then no_slots else s).
  2: { destruct (id =? glo_superframe w) eqn:E; cbn [negb]; [f_equal; lia| reflexivity]. }
  replace (n =? 0) with false by lia. cbv zeta.
  set (s1 := put (if negb (id =? glo_superframe w) then no_slots else s) (n - 1) (Some w)).
  assert (K : s1 (n - 1) = Some w /\ forall k v, s k = Some v -> k <> n - 1 -> id = glo_superframe w -> s1 k = Some v).
  { unfold s1. split; [apply put_same|]. intros k v H N E. rewrite put_other by exact N. replace (id =? glo_superframe w) with true by lia. exact H. }
  clearbody s1.
  destruct (s1 0); [|do 2 eexists; split; [reflexivity|]; right; exact K]. destruct (s1 1); [|do 2 eexists; split; [reflexivity|]; right; exact K].
  destruct (s1 2); [|do 2 eexists; split; [reflexivity|]; right; exact K]. destruct (s1 3); [|do 2 eexists; split; [reflexivity|]; right; exact K].
  destruct (s1 4); [|do 2 eexists; split; [reflexivity|]; right; exact K].
  destruct leap; do 2 eexists; (split; [reflexivity|]); [left; discriminate| right; exact K].
Qed.
Lemma glo_final p fcn id s w1 w2 w3 w4 w5 : glo_number w5 = Some 5 -> id = glo_superframe w5 ->
  s 0 = Some w1 -> s 1 = Some w2 -> s 2 = Some w3 -> s 3 = Some w4 -> exists y x, glo_step p fcn true (id, s) w5 = Some (y, Some x).
Proof.
  intros Hi E H0 H1 H2 H3. unfold glo_step. rewrite Hi. replace (id =? glo_superframe w5) with true by lia. cbn [negb Z.eqb]. cbv zeta.
  change (5 - 1) with 4. rewrite !put_other by lia. rewrite put_same, H0, H1, H2, H3. do 2 eexists. reflexivity.
Qed.

(** GPS: two consecutive sets with the same content *)
Lemma znth_drop2 ws k : 2 <= k -> wd ws k = znth 0 (k - 2) (drop 2 ws).
Proof. intros. unfold wd. rewrite znth_drop by lia. f_equal. lia. Qed.
Lemma gps_iod_content j v w : drop 2 v = drop 2 w -> gps_iod j v = gps_iod j w.
Proof.
  intros H. unfold gps_iod. rewrite (znth_drop2 v 7), (znth_drop2 v 2), (znth_drop2 v 9), (znth_drop2 w 7), (znth_drop2 w 2), (znth_drop2 w 9), H by lia. reflexivity.
Qed.
Section G.
Variables (p : Z) (fa fb fc : list Z).
Hypothesis VALID : forall t, gps_valid p [fa; fb; fc] t = true.
(** a subframe of the set *)
Definition in_set (i : Z) (w : list Z) : Prop :=
  gps_index w = Some i /\ drop 2 w = (if i =? 0 then fa else if i =? 1 then fb else fc) /\ (i = 0 -> gps_tow w <> None).
Definition at3 (s : slots) (x y z : option (list Z)) : Prop := s 0 = x /\ s 1 = y /\ s 2 = z.
Lemma gps_missing s w i x y z : gps_index w = Some i -> at3 (put s i (Some w)) x y z -> x = None \/ y = None \/ z = None ->
  exists s', gps_step gps_valid p s w = (s', None) /\ at3 s' x y z.
Proof.
  intros Hi (A & B & C) N. unfold gps_step. rewrite Hi. cbv zeta. exists (put s i (Some w)). split; [|repeat split; assumption].
  rewrite A, B, C. destruct N as [-> | [-> | ->]]; [reflexivity| destruct x; reflexivity| destruct x, y; reflexivity].
Qed.
Lemma gps_full s w i a b c : gps_index w = Some i -> at3 (put s i (Some w)) (Some a) (Some b) (Some c) -> (exists t, gps_tow a = Some t) ->
  exists s' o, gps_step gps_valid p s w = (s', o) /\ (o <> None \/ s' = no_slots \/ s' = put no_slots i (Some w)).
Proof.
  intros Hi (A & B & C) (t & T). unfold gps_step. rewrite Hi. cbv zeta. rewrite A, B, C.
  destruct (_ || _); [do 2 eexists; split; [reflexivity|]; auto|]. rewrite T. destruct (gps_valid p _ t); do 2 eexists; (split; [reflexivity|]); [left; discriminate| auto].
Qed.
Hypothesis IOD : forall a b c, in_set 0 a -> in_set 1 b -> in_set 2 c -> gps_iod 0 a = gps_iod 1 b /\ gps_iod 1 b = gps_iod 2 c.
Lemma gps_hit s w i a b c : gps_index w = Some i -> at3 (put s i (Some w)) (Some a) (Some b) (Some c) -> in_set 0 a -> in_set 1 b -> in_set 2 c ->
  exists s' o, gps_step gps_valid p s w = (s', Some o).
Proof.
  intros Hi (A & B & C) Ia Ib Ic. unfold gps_step. rewrite Hi. cbv zeta. rewrite A, B, C. destruct (IOD a b c Ia Ib Ic) as [-> ->].
  rewrite Z.eqb_refl. cbn [negb orb]. destruct Ia as (_ & Da & Ta), Ib as (_ & Db & _), Ic as (_ & Dc & _). cbn [Z.eqb Pos.eqb] in *.
  destruct (gps_tow a) as [t|]; [|contradiction (Ta eq_refl eq_refl)]. cbn [map]. rewrite Da, Db, Dc, VALID. do 2 eexists. reflexivity.
Qed.
Lemma tow_ex a : in_set 0 a -> exists t, gps_tow a = Some t.
Proof. intros (_ & _ & H). destruct (gps_tow a) as [t|]; [eauto| contradiction (H eq_refl eq_refl)]. Qed.
Lemma gps_live s a b c a' b' : in_set 0 a -> in_set 1 b -> in_set 2 c -> in_set 0 a' -> in_set 1 b' ->
  let (s1, o1) := gps_step gps_valid p s a in let (s2, o2) := gps_step gps_valid p s1 b in let (s3, o3) := gps_step gps_valid p s2 c in
  let (s4, o4) := gps_step gps_valid p s3 a' in let (s5, o5) := gps_step gps_valid p s4 b' in
  o1 <> None \/ o2 <> None \/ o3 <> None \/ o4 <> None \/ o5 <> None.
Proof.
  intros Ia Ib Ic Ia' Ib'.
  assert (Xa := proj1 Ia). assert (Xb := proj1 Ib). assert (Xc := proj1 Ic). assert (Xa' := proj1 Ia'). assert (Xb' := proj1 Ib').
  (* after the first subframe 1 *)
  assert (S1 : exists s1 o1, gps_step gps_valid p s a = (s1, o1) /\ (o1 <> None \/ at3 s1 None None None \/ at3 s1 (Some a) None None \/ (exists y, at3 s1 (Some a) (Some y) None) \/ (exists z, at3 s1 (Some a) None (Some z)))).
  { destruct (s 1) as [y|] eqn:E1; [destruct (s 2) as [z|] eqn:E2|].
    - destruct (gps_full s a 0 a y z Xa) as (s' & o & -> & H); [repeat split; assumption | apply tow_ex, Ia |]. do 2 eexists; split; [reflexivity|].
      destruct H as [H | [-> | ->]]; [auto| right; left; repeat split| right; right; left; repeat split].
    - destruct (gps_missing s a 0 (Some a) (Some y) None Xa) as (s' & -> & H); [repeat split; assumption| auto|]. do 2 eexists; split; [reflexivity|]. right; right; right; left. eauto.
    - destruct (gps_missing s a 0 (Some a) None (s 2) Xa) as (s' & -> & H); [repeat split; assumption| auto|]. do 2 eexists; split; [reflexivity|].
      right. destruct (s 2) as [z|]; [right; right; right; eauto| right; left; exact H]. }
  destruct S1 as (s1 & o1 & -> & S1).
  assert (S2 : exists s2 o2, gps_step gps_valid p s1 b = (s2, o2) /\ (o1 <> None \/ o2 <> None \/ at3 s2 None None None \/ at3 s2 None (Some b) None \/ at3 s2 (Some a) (Some b) None)).
  { destruct S1 as [S1 | [(A & B & C) | [(A & B & C) | [(y & A & B & C) | (z & A & B & C)]]]].
    - destruct (gps_step gps_valid p s1 b) as [s2 o2]. do 2 eexists; split; [reflexivity|]. auto.
    - destruct (gps_missing s1 b 1 None (Some b) None Xb) as (s' & -> & H); [repeat split; assumption| auto|]. do 2 eexists; split; [reflexivity|]. auto.
    - destruct (gps_missing s1 b 1 (Some a) (Some b) None Xb) as (s' & -> & H); [repeat split; assumption| auto|]. do 2 eexists; split; [reflexivity|]. auto.
    - destruct (gps_missing s1 b 1 (Some a) (Some b) None Xb) as (s' & -> & H); [repeat split; assumption| auto|]. do 2 eexists; split; [reflexivity|]. auto.
    - destruct (gps_full s1 b 1 a b z Xb) as (s' & o & -> & H); [repeat split; assumption| apply tow_ex, Ia|]. do 2 eexists; split; [reflexivity|].
      destruct H as [H | [-> | ->]]; [auto| do 2 right; left; repeat split| do 3 right; left; repeat split]. }
  destruct S2 as (s2 & o2 & -> & S2).
  assert (S3 : exists s3 o3, gps_step gps_valid p s2 c = (s3, o3) /\ (o1 <> None \/ o2 <> None \/ o3 <> None \/ at3 s3 None None (Some c) \/ at3 s3 None (Some b) (Some c))).
  { destruct S2 as [S2 | [S2 | [(A & B & C) | [(A & B & C) | (A & B & C)]]]].
    - destruct (gps_step gps_valid p s2 c) as [s3 o3]. do 2 eexists; split; [reflexivity|]. auto.
    - destruct (gps_step gps_valid p s2 c) as [s3 o3]. do 2 eexists; split; [reflexivity|]. auto.
    - destruct (gps_missing s2 c 2 None None (Some c) Xc) as (s' & -> & H); [repeat split; assumption| auto|]. do 2 eexists; split; [reflexivity|]. tauto.
    - destruct (gps_missing s2 c 2 None (Some b) (Some c) Xc) as (s' & -> & H); [repeat split; assumption| auto|]. do 2 eexists; split; [reflexivity|]. tauto.
    - destruct (gps_hit s2 c 2 a b c Xc) as (s' & o & ->); [repeat split; assumption| assumption..|]. do 2 eexists; split; [reflexivity|]. right. right. left. discriminate. }
  destruct S3 as (s3 & o3 & -> & S3).
  assert (S4 : exists s4 o4, gps_step gps_valid p s3 a' = (s4, o4) /\ (o1 <> None \/ o2 <> None \/ o3 <> None \/ o4 <> None \/ at3 s4 (Some a') None (Some c))).
  { destruct S3 as [S3 | [S3 | [S3 | [(A & B & C) | (A & B & C)]]]].
    1-3: destruct (gps_step gps_valid p s3 a') as [s4 o4]; do 2 eexists; (split; [reflexivity|]); tauto.
    - destruct (gps_missing s3 a' 0 (Some a') None (Some c) Xa') as (s' & -> & H); [repeat split; assumption| auto|]. do 2 eexists; split; [reflexivity|]. tauto.
    - destruct (gps_hit s3 a' 0 a' b c Xa') as (s' & o & ->); [repeat split; assumption| assumption..|]. do 2 eexists; split; [reflexivity|]. do 3 right. left. discriminate. }
  destruct S4 as (s4 & o4 & -> & S4).
  destruct S4 as [S4 | [S4 | [S4 | [S4 | (A & B & C)]]]].
  1-4: destruct (gps_step gps_valid p s4 b') as [s5 o5]; tauto.
  destruct (gps_hit s4 b' 1 a' b' c Xb') as (s' & o & ->); [repeat split; assumption| assumption..|]. do 4 right. discriminate.
Qed.
End G.

(** from the satellites to the converter *)
Lemma sat_run_some g p x es y os : sat_run g p x es = Some (y, filter (about g p) os) ->
  filter (about g p) os <> [] -> exists o, In o os /\ out_sat o = (g, p).
Proof.
  intros _ H. destruct (filter (about g p) os) as [|o r] eqn:E; [contradiction|].
  assert (In o (filter (about g p) os)) by (rewrite E; left; reflexivity). apply filter_In in H0. exists o. split; [apply H0|]. apply about_spec, H0.
Qed.

Lemma sat_run_run g p es : eph_gnss g -> (forall e, In e es -> from_sat g p e) -> forall st x os,
  sat_run g p (proj st g p) es = Some (x, os) -> exists st' os', run st es = Some (st', os').
Proof.
  intros Hg. induction es as [|e es IH]; intros HF st x os; cbn [sat_run sfrbx_run]; [eauto|].
  pose proof (step_in st e g p Hg (HF e (or_introl eq_refl))) as S. destruct (step st e) as [[st1 o]|].
  - rewrite S. destruct (sat_run g p (proj st1 g p) es) as [[x2 os2]|] eqn:E; [|discriminate]. intros _.
    destruct (IH (fun e H => HF e (or_intror H)) st1 _ _ E) as (st' & os' & ->). eauto.
  - rewrite S. discriminate.
Qed.
Lemma filter_filter_same {A} (f : A -> bool) l : filter f (filter f l) = filter f l.
Proof. induction l as [|a l IH]; [reflexivity|]. cbn. destruct (f a) eqn:E; cbn; [rewrite E, IH; reflexivity| exact IH]. Qed.
Lemma isolation g p h st os : eph_gnss g -> run ephst_init h = Some (st, os) ->
  exists st' os', run ephst_init (filter (of_sat g p) h) = Some (st', os') /\ filter (about g p) os' = filter (about g p) os.
Proof.
  intros Hg H. pose proof (isolated g p h Hg _ _ _ (side_init bds_d2) H) as I.
  destruct (sat_run_run g p (filter (of_sat g p) h) Hg) with (st := ephst_init) (x := proj st g p) (os := filter (about g p) os) as (st' & os' & R).
  - intros e He. apply filter_In in He. apply of_sat_spec, He.
  - exact I.
  - exists st', os'. split; [exact R|]. pose proof (isolated g p _ Hg _ _ _ (side_init bds_d2) R) as J. rewrite filter_filter_same, I in J. congruence.
Qed.
(** if running the satellite's own messages from any state gives an output, so does the whole history *)
Lemma lift_live g p h0 st0 os0 h st os : eph_gnss g -> run ephst_init h0 = Some (st0, os0) -> run st0 h = Some (st, os) ->
  (forall x y o, sat_run g p x (filter (of_sat g p) h) = Some (y, o) -> o <> []) -> exists o, In o os /\ out_sat o = (g, p).
Proof.
  intros Hg H0 H L. pose proof (isolated g p h Hg _ _ _ (run_side _ _ _ _ _ _ H0) H) as I. apply (sat_run_some _ _ _ _ _ _ I). exact (L _ _ _ I).
Qed.
End L.
