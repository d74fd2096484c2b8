From Verif Require Import Base Bitstring Bits_model Bits_proofs Crc RtcmMsm_model Signals_model Subframes_model Subframes_spec.

Lemma fld_spec ws k a m n : 0 <= a -> 0 <= n -> m = Z.ones n -> fld (wd ws k) a m = field_of ws k a n.
Proof.
  intros Ha Hn ->. unfold fld, field_of, wd, word. rewrite Z.land_ones by lia. rewrite Z.shiftr_div_pow2 by lia. reflexivity.
Qed.
Lemma field_range ws k a n : 0 <= n -> 0 <= field_of ws k a n < 2 ^ n.
Proof. intros. unfold field_of. apply Z.mod_pos_bound. lia. Qed.
Lemma wd_take ws k n : 0 <= k < n -> wd (take n ws) k = wd ws k.
Proof.
  intros. unfold wd, znth, take. revert ws k H. 
  intros ws k H. destruct (Nat.lt_ge_cases (Z.to_nat k) (length ws)).
  - rewrite <- (firstn_skipn (Z.to_nat n) ws) at 2. rewrite app_nth1; [reflexivity|]. rewrite firstn_length. lia.
  - rewrite !nth_overflow; [reflexivity| lia|]. rewrite firstn_length. lia.
Qed.

(** ** classification of the words *)
Lemma gps_index_spec ws i : gps_index ws = Some i <-> is_part 0 (i + 1) ws.
Proof.
  unfold gps_index, is_part. cbn [Z.eqb].
  rewrite (fld_spec ws 0 22 0xFF 8) by (try reflexivity; lia).
  rewrite (fld_spec ws 1 8 7 3) by (try reflexivity; lia).
  destruct (len ws =? 10) eqn:E1; cbn [negb]; [|split; [discriminate| lia]].
  destruct (field_of ws 0 22 8 =? 0x8b) eqn:E2; cbn [negb]; [|split; [discriminate| lia]].
  destruct ((field_of ws 1 8 3 - 1 <? 0) || (2 <? field_of ws 1 8 3 - 1)) eqn:E3; [split; [discriminate| lia]|].
  split; [intros [= <-]; lia| intros; f_equal; lia].
Qed.
Lemma bds_index_spec ws i : bds_index ws = Some i <-> is_part 3 (i + 1) ws.
Proof.
  unfold bds_index, is_part. cbn [Z.eqb Pos.eqb].
  rewrite (fld_spec ws 0 12 7 3) by (try reflexivity; lia).
  destruct (len ws =? 10) eqn:E1; cbn [negb]; [|split; [discriminate| lia]].
  destruct ((field_of ws 0 12 3 - 1 <? 0) || (2 <? field_of ws 0 12 3 - 1)) eqn:E3; [split; [discriminate| lia]|].
  split; [intros [= <-]; lia| intros; f_equal; lia].
Qed.
Lemma gal_index_spec ws i : gal_index ws = Some i <-> is_part 2 (i + 1) ws.
Proof.
  unfold gal_index, is_part. cbn [Z.eqb Pos.eqb].
  rewrite (fld_spec ws 0 30 1 1) by (try reflexivity; lia).
  rewrite (fld_spec ws 0 31 1 1) by (try reflexivity; lia).
  rewrite (fld_spec ws 4 31 1 1) by (try reflexivity; lia).
  rewrite (fld_spec ws 0 24 0x3F 6) by (try reflexivity; lia).
  pose proof (field_range ws 0 30 1 ltac:(lia)). pose proof (field_range ws 0 31 1 ltac:(lia)).
  destruct (len ws <=? 8) eqn:E1; [split; [discriminate| lia]|].
  destruct (field_of ws 0 30 1 =? 1) eqn:E2; [split; [discriminate| lia]|].
  destruct (field_of ws 0 31 1 =? 0) eqn:E3; cbn [negb]; [|split; [discriminate| lia]].
  destruct (field_of ws 4 31 1 =? 1) eqn:E4; cbn [negb]; [|split; [discriminate| lia]].
  destruct ((field_of ws 0 24 6 <? 1) || (5 <? field_of ws 0 24 6)) eqn:E5; [split; [discriminate| lia]|].
  split; [intros [= <-]; lia| intros; f_equal; lia].
Qed.
Lemma glo_number_spec ws n : 1 <= n -> (glo_number ws = Some n <-> is_part 6 n ws).
Proof.
  intros Hn. unfold glo_number, is_part. cbn [Z.eqb Pos.eqb].
  rewrite (fld_spec ws 0 31 1 1) by (try reflexivity; lia).
  rewrite (fld_spec ws 0 27 0xF 4) by (try reflexivity; lia).
  destruct (len ws =? 4) eqn:E1; cbn [negb]; [|split; [discriminate| lia]].
  destruct (field_of ws 0 31 1 =? 0) eqn:E2; cbn [negb]; [|split; [discriminate| lia]].
  destruct (5 <? field_of ws 0 27 4) eqn:E3; [split; [discriminate| lia]|].
  split; [intros [= <-]; lia| intros (_ & _ & _ & -> & _); reflexivity].
Qed.
Lemma glo_number_range ws n : glo_number ws = Some n -> 0 <= n <= 5.
Proof.
  unfold glo_number. rewrite (fld_spec ws 0 27 0xF 4) by (try reflexivity; lia).
  pose proof (field_range ws 0 27 4 ltac:(lia)).
  destruct (len ws =? 4) eqn:E1; cbn [negb]; [|discriminate].
  destruct (fld (wd ws 0) 31 1 =? 0) eqn:E2; cbn [negb]; [|discriminate].
  destruct (5 <? field_of ws 0 27 4) eqn:E3; [discriminate|]. intros [= <-]. lia.
Qed.
Lemma gps_index_range ws i : gps_index ws = Some i -> 0 <= i <= 2.
Proof. rewrite gps_index_spec. unfold is_part. cbn [Z.eqb Pos.eqb]. lia. Qed.
Lemma bds_index_range ws i : bds_index ws = Some i -> 0 <= i <= 2.
Proof. rewrite bds_index_spec. unfold is_part. cbn [Z.eqb Pos.eqb]. lia. Qed.
Lemma gal_index_range ws i : gal_index ws = Some i -> 0 <= i <= 4.
Proof. rewrite gal_index_spec. unfold is_part. cbn [Z.eqb Pos.eqb]. lia. Qed.

(** slot number of an event's words, and the words stored *)
Definition part_index (g : Z) (ws : list Z) : option Z :=
  if g =? 0 then gps_index ws else if g =? 3 then bds_index ws else if g =? 2 then gal_index ws
  else match glo_number ws with Some n => if n =? 0 then None else Some (n - 1) | None => None end.
Definition stored (g : Z) (ws : list Z) : list Z := if g =? 2 then take 8 ws else ws.
Definition eph_gnss (g : Z) : Prop := g = 0 \/ g = 2 \/ g = 3 \/ g = 6.

Lemma part_index_spec g ws i : eph_gnss g -> (part_index g ws = Some i <-> is_part g (i + 1) ws).
Proof.
  intros [-> | [-> | [-> | ->]]].
  - apply gps_index_spec.
  - apply gal_index_spec.
  - apply bds_index_spec.
  - unfold part_index. cbn [Z.eqb Pos.eqb]. split.
    + destruct (glo_number ws) as [n|] eqn:E; [|discriminate].
      destruct (n =? 0) eqn:E0; [discriminate|]. intros [= <-]. apply glo_number_range in E as R.
      replace (n - 1 + 1) with n by lia. apply glo_number_spec; [lia| exact E].
    + intros H. assert (1 <= i + 1) by (unfold is_part in H; cbn [Z.eqb Pos.eqb] in H; lia).
      apply glo_number_spec in H; [|lia]. rewrite H. replace (i + 1 =? 0) with false by lia. f_equal. lia.
Qed.

(** ** one step of a satellite: what may be in the slots afterwards *)
(** slot [j] of [s'] comes from the message [ws] or was there before and is not replaced by it *)
Definition fresh (g : Z) (s : slots) (ws : list Z) (j : Z) (w : list Z) : Prop :=
  (part_index g ws = Some j /\ w = stored g ws) \/ (s j = Some w /\ part_index g ws <> Some j).
Lemma put_fresh g s ws i j w : part_index g ws = Some i -> put s i (Some (stored g ws)) j = Some w -> fresh g s ws j w.
Proof.
  intros Hi. unfold put. destruct (j =? i) eqn:E.
  - intros [= <-]. left. split; [rewrite Hi; f_equal; lia| reflexivity].
  - intros H. right. split; [exact H|]. rewrite Hi. intros [= ->]. lia.
Qed.
Lemma old_fresh g s ws j w : part_index g ws = None -> s j = Some w -> fresh g s ws j w.
Proof. intros. right. split; [assumption| congruence]. Qed.

Section D.
Variable gps_valid : Z -> list (list Z) -> Z -> bool.
Variable gal_ok : list (list Z) -> bool.
Variable bds_d2 : Z -> bool.

Definition outcome (g : Z) (s : slots) (ws : list Z) (s' : slots) (o : option eph_out) : Prop :=
  match o with
  | None => forall j w, s' j = Some w -> fresh g s ws j w
  | Some x => (forall j, s' j = None) /\ exists parts, len parts = parts_needed g /\
      (forall j, 0 <= j < parts_needed g -> fresh g s ws j (znth [] j parts)) /\ same_issue g parts
  end.

Lemma gps_step_outcome prn s ws s' o : gps_step gps_valid prn s ws = (s', o) ->
  outcome 0 s ws s' o /\
  forall x, o = Some x -> exists a b c tow, x = EphGps prn tow (map (drop 2) [a; b; c]) /\ gps_tow a = Some tow /\
    (forall j, 0 <= j < 3 -> fresh 0 s ws j (znth [] j [a; b; c])) /\ same_issue 0 [a; b; c].
Proof.
  unfold gps_step. destruct (gps_index ws) as [i|] eqn:Ei.
  2: { intros [= <- <-]. split; [|discriminate]. cbn. intros j w H. apply old_fresh; [exact Ei| exact H]. }
  set (s1 := put s i (Some ws)).
  assert (F : forall j w, s1 j = Some w -> fresh 0 s ws j w) by (intros j w; apply (put_fresh 0); exact Ei).
  assert (FN : forall j w, put no_slots i (Some ws) j = Some w -> fresh 0 s ws j w).
  { intros j w. unfold put, no_slots. destruct (j =? i) eqn:E; [|discriminate]. intros [= <-].
    left. split; [|reflexivity]. cbn. rewrite Ei. f_equal. lia. }
  destruct (s1 0) as [a|] eqn:E0; [|intros [= <- <-]; split; [exact F| discriminate]].
  destruct (s1 1) as [b|] eqn:E1; [|intros [= <- <-]; split; [exact F| discriminate]].
  destruct (s1 2) as [c|] eqn:E2; [|intros [= <- <-]; split; [exact F| discriminate]].
  destruct (negb (gps_iod 0 a =? gps_iod 1 b) || negb (gps_iod 1 b =? gps_iod 2 c)) eqn:EI.
  { intros [= <- <-]; split; [exact FN| discriminate]. }
  destruct (gps_tow a) as [tow|] eqn:ET.
  2: { intros [= <- <-]; split; [|discriminate]. intros j w. unfold put. destruct (j =? 0); [discriminate| apply F]. }
  assert (FA : forall j, 0 <= j < 3 -> fresh 0 s ws j (znth [] j [a; b; c])).
  { intros j Hj. assert (j = 0 \/ j = 1 \/ j = 2) as [-> | [-> | ->]] by lia; apply F; assumption. }
  assert (SI : same_issue 0 [a; b; c]).
  { unfold same_issue. cbn [Z.eqb]. change (znth [] 0 [a; b; c]) with a. change (znth [] 1 [a; b; c]) with b.
    change (znth [] 2 [a; b; c]) with c. rewrite <- !(fld_spec _ _ 22 0xFF 8) by (try reflexivity; lia).
    unfold gps_iod in EI. cbn [Z.eqb Pos.eqb] in EI. lia. }
  destruct (gps_valid prn _ tow); intros [= <- <-].
  - split.
    + split; [reflexivity|]. exists [a; b; c]. repeat split; [exact FA| apply SI| apply SI].
    + intros x [= <-]. exists a, b, c, tow. repeat split; [exact ET| exact FA| apply SI| apply SI].
  - split; [|discriminate]. intros j w H. discriminate.
Qed.

Lemma lor_sow ws : bds_sow ws = field_of ws 0 4 8 * 4096 + field_of ws 1 18 12.
Proof.
  unfold bds_sow. rewrite (fld_spec ws 0 4 0xFF 8) by (try reflexivity; lia).
  rewrite (fld_spec ws 1 18 0xFFF 12) by (try reflexivity; lia).
  pose proof (field_range ws 1 18 12 ltac:(lia)). pose proof (field_range ws 0 4 8 ltac:(lia)).
  rewrite lor_shiftl_add; [| lia | lia]. lia.
Qed.
Lemma bds_step_outcome prn s ws s' o : (bds_d2 prn = true -> forall j, s j = None) -> bds_step bds_d2 prn s ws = (s', o) ->
  (bds_d2 prn = true -> forall j, s' j = None) /\ outcome 3 s ws s' o /\
  forall x, o = Some x -> exists a b c, x = EphBds prn [a; b; c] /\
    (forall j, 0 <= j < 3 -> fresh 3 s ws j (znth [] j [a; b; c])) /\ same_issue 3 [a; b; c].
Proof.
  intros HD. unfold bds_step. destruct (bds_d2 prn) eqn:ED.
  { intros [= <- <-]. split; [exact HD|]. split; [|discriminate]. intros j w H. rewrite HD in H by reflexivity. discriminate. }
  intros H. split; [discriminate|]. revert H. clear HD.
  destruct (bds_index ws) as [i|] eqn:Ei.
  2: { intros [= <- <-]. split; [|discriminate]. cbn. intros j w H. apply old_fresh; [exact Ei| exact H]. }
  set (s1 := put s i (Some ws)).
  assert (F : forall j w, s1 j = Some w -> fresh 3 s ws j w) by (intros j w; apply (put_fresh 3); exact Ei).
  assert (FN : forall k j w, put s1 k None j = Some w -> fresh 3 s ws j w).
  { intros k j w. unfold put at 1. destruct (j =? k) eqn:E; [discriminate| apply F]. }
  destruct (s1 0) as [a|] eqn:E0; [|intros [= <- <-]; split; [exact F| discriminate]].
  destruct (s1 1) as [b|] eqn:E1; [|intros [= <- <-]; split; [exact F| discriminate]].
  destruct (s1 2) as [c|] eqn:E2; [|intros [= <- <-]; split; [exact F| discriminate]].
  destruct (604800 <=? bds_sow a) eqn:S0; [intros [= <- <-]; split; [exact (FN 0)| discriminate]|].
  destruct (604800 <=? bds_sow b) eqn:S1; [intros [= <- <-]; split; [exact (FN 1)| discriminate]|].
  destruct (604800 <=? bds_sow c) eqn:S2; [intros [= <- <-]; split; [exact (FN 2)| discriminate]|].
  destruct (negb (bds_sow a =? _) || negb (bds_sow b =? _)) eqn:EI.
  { intros [= <- <-]; split; [exact F| discriminate]. }
  assert (FA : forall j, 0 <= j < 3 -> fresh 3 s ws j (znth [] j [a; b; c])).
  { intros j Hj. assert (j = 0 \/ j = 1 \/ j = 2) as [-> | [-> | ->]] by lia; apply F; assumption. }
  assert (SI : same_issue 3 [a; b; c]).
  { unfold same_issue. cbn [Z.eqb Pos.eqb]. change (znth [] 0 [a; b; c]) with a. change (znth [] 1 [a; b; c]) with b.
    change (znth [] 2 [a; b; c]) with c. rewrite <- !lor_sow.
    assert (Rb : 0 <= bds_sow b) by (rewrite lor_sow; pose proof (field_range b 0 4 8 ltac:(lia)); pose proof (field_range b 1 18 12 ltac:(lia)); lia).
    assert (Rc : 0 <= bds_sow c) by (rewrite lor_sow; pose proof (field_range c 0 4 8 ltac:(lia)); pose proof (field_range c 1 18 12 ltac:(lia)); lia).
    revert EI S0 S1 S2 Rb Rc. generalize (bds_sow a) (bds_sow b) (bds_sow c). clear. intros x y z EI S0 S1 S2 Rb Rc.
    apply orb_false_elim in EI. destruct EI as [EA EB]. apply negb_false_iff in EA, EB.
    apply Z.eqb_eq in EA, EB. apply Z.leb_gt in S0, S1, S2. change (2 ^ 32) with 4294967296 in EA, EB.
    split; [|split]; lia. }
  intros [= <- <-]. split.
  - split; [reflexivity|]. exists [a; b; c]. split; [reflexivity|]. split; [exact FA| exact SI].
  - intros x [= <-]. exists a, b, c. split; [reflexivity|]. split; [exact FA| exact SI].
Qed.

Lemma iodnav_take ws : gal_iodnav (take 8 ws) = gal_iodnav ws.
Proof. unfold gal_iodnav. rewrite wd_take by lia. reflexivity. Qed.
Lemma content_take ws : gal_content (take 8 ws) = gal_content ws.
Proof. unfold gal_content. rewrite !wd_take by lia. reflexivity. Qed.
(** the pages 1-4 in the slots always have one IODnav *)
Definition gal_inv (s : slots) : Prop :=
  forall j k v w, 0 <= j < 4 -> 0 <= k < 4 -> s j = Some v -> s k = Some w -> gal_iodnav v = gal_iodnav w.
Lemma gal_step_outcome prn s ws s' o : gal_inv s -> gal_step gal_ok prn s ws = (s', o) ->
  gal_inv s' /\ outcome 2 s ws s' o /\
  forall x, o = Some x -> exists a b c d e, x = EphGal prn (map gal_content [a; b; c; d; e]) /\
    (forall j, 0 <= j < 5 -> fresh 2 s ws j (znth [] j [a; b; c; d; e])) /\ same_issue 2 [a; b; c; d; e].
Proof.
  intros GI. unfold gal_step. destruct (gal_index ws) as [i|] eqn:Ei.
  2: { intros [= <- <-]. split; [exact GI|]. split; [|discriminate]. cbn. intros j w H. apply old_fresh; [exact Ei| exact H]. }
  pose proof (gal_index_range _ _ Ei) as Ri.
  set (s0 := put s i (Some (take 8 ws))).
  assert (F0 : forall j w, s0 j = Some w -> fresh 2 s ws j w) by (intros j w; apply (put_fresh 2); exact Ei).
  set (s1 := if i =? 4 then s0 else gal_keep (gal_iodnav ws) s0).
  assert (F : forall j w, s1 j = Some w -> fresh 2 s ws j w).
  { intros j w. unfold s1. destruct (i =? 4); [apply F0|]. unfold gal_keep. destruct (s0 j) as [v|] eqn:E; [|discriminate].
    destruct (_ && _); [discriminate|]. intros [= <-]. apply F0. exact E. }
  assert (GI1 : gal_inv s1).
  { unfold s1. destruct (i =? 4) eqn:E4.
    - intros j k v w Hj Hk. unfold s0, put. replace (j =? i) with false by lia. replace (k =? i) with false by lia. apply GI; assumption.
    - intros j k v w Hj Hk. unfold gal_keep. destruct (s0 j) as [v'|]; [|discriminate]. destruct (s0 k) as [w'|]; [|discriminate].
      replace (j <? 4) with true by lia. replace (k <? 4) with true by lia. cbn [andb].
      destruct (negb (gal_iodnav v' =? gal_iodnav ws)) eqn:Q1; [discriminate|].
      destruct (negb (gal_iodnav w' =? gal_iodnav ws)) eqn:Q2; [discriminate|].
      intros [= <-] [= <-]. lia. }
  clearbody s1.
  destruct (s1 0) as [a|] eqn:E0; [|intros [= <- <-]; split; [exact GI1|]; split; [exact F| discriminate]].
  destruct (s1 1) as [b|] eqn:E1; [|intros [= <- <-]; split; [exact GI1|]; split; [exact F| discriminate]].
  destruct (s1 2) as [c|] eqn:E2; [|intros [= <- <-]; split; [exact GI1|]; split; [exact F| discriminate]].
  destruct (s1 3) as [d|] eqn:E3; [|intros [= <- <-]; split; [exact GI1|]; split; [exact F| discriminate]].
  destruct (s1 4) as [e|] eqn:E4; [|intros [= <- <-]; split; [exact GI1|]; split; [exact F| discriminate]].
  destruct (gal_ok _); [|intros [= <- <-]; split; [exact GI1|]; split; [exact F| discriminate]].
  assert (FA : forall j, 0 <= j < 5 -> fresh 2 s ws j (znth [] j [a; b; c; d; e])).
  { intros j Hj. assert (j = 0 \/ j = 1 \/ j = 2 \/ j = 3 \/ j = 4) as [-> | [-> | [-> | [-> | ->]]]] by lia; apply F; assumption. }
  assert (SI : same_issue 2 [a; b; c; d; e]).
  { unfold same_issue. cbn [Z.eqb Pos.eqb]. intros k Hk. rewrite <- !(fld_spec _ _ 14 0x3FF 10) by (try reflexivity; lia).
    assert (k = 0 \/ k = 1 \/ k = 2 \/ k = 3) as [-> | [-> | [-> | ->]]] by lia.
    - reflexivity.
    - exact (GI1 1 0 b a ltac:(lia) ltac:(lia) E1 E0).
    - exact (GI1 2 0 c a ltac:(lia) ltac:(lia) E2 E0).
    - exact (GI1 3 0 d a ltac:(lia) ltac:(lia) E3 E0). }
  intros [= <- <-]. split; [intros ? ? ? ? _ _ [=]|]. split.
  - split; [reflexivity|]. exists [a; b; c; d; e]. split; [reflexivity|]. split; [exact FA| exact SI].
  - intros x [= <-]. exists a, b, c, d, e. split; [reflexivity|]. split; [exact FA| exact SI].
Qed.

(** all strings in the slots have the current superframe number *)
Definition glo_inv (st : Z * slots) : Prop := forall j w, snd st j = Some w -> glo_superframe w = fst st.
Lemma glo_step_outcome prn fcn leap st ws st' o : glo_inv st -> glo_step prn fcn leap st ws = Some (st', o) ->
  glo_inv st' /\ outcome 6 (snd st) ws (snd st') o /\
  forall x, o = Some x -> exists a b c d e, x = EphGlo prn ((fcn + 1) mod 256) (map glo_content [a; b; c; d; e]) /\
    (forall j, 0 <= j < 5 -> fresh 6 (snd st) ws j (znth [] j [a; b; c; d; e])) /\ same_issue 6 [a; b; c; d; e].
Proof.
  intros GI. unfold glo_step. destruct (glo_number ws) as [n|] eqn:Ei.
  2: { intros [= <- <-]. split; [exact GI|]. split; [|discriminate]. cbn. intros j w H. apply old_fresh; [|exact H].
       unfold part_index. cbn [Z.eqb Pos.eqb]. rewrite Ei. reflexivity. }
  pose proof (glo_number_range _ _ Ei) as Rn.
  destruct st as [id s]. cbn [fst snd] in *.
  set (id1 := glo_superframe ws).
  set (s0 := if negb (id =? id1) then no_slots else s).
  replace (if negb (id =? id1) then (id1, no_slots) else (id, s)) with (id1, s0).
  2: { unfold s0. destruct (id =? id1) eqn:E; cbn [negb]; [f_equal; lia| reflexivity]. }
  destruct (n =? 0) eqn:E0n; [discriminate|].
  assert (PI : part_index 6 ws = Some (n - 1)) by (unfold part_index; cbn [Z.eqb Pos.eqb]; rewrite Ei, E0n; reflexivity).
  assert (F0 : forall j w, s0 j = Some w -> s j = Some w /\ glo_superframe w = id1).
  { intros j w. unfold s0. destruct (id =? id1) eqn:E; cbn [negb]; [|discriminate]. intros H. split; [exact H|].
    specialize (GI j w H). cbn [fst] in GI. lia. }
  set (s1 := put s0 (n - 1) (Some ws)).
  assert (F : forall j w, s1 j = Some w -> fresh 6 s ws j w).
  { intros j w. unfold s1, put. destruct (j =? n - 1) eqn:E.
    - intros [= <-]. left. split; [rewrite PI; f_equal; lia| reflexivity].
    - intros H. right. split; [apply F0; exact H|]. rewrite PI. intros Q. assert (n - 1 = j) by congruence. lia. }
  assert (GI1 : glo_inv (id1, s1)).
  { intros j w. cbn [fst snd]. unfold s1, put. destruct (j =? n - 1) eqn:E; [intros [= <-]; reflexivity|]. apply F0. }
  clearbody s1.
  destruct (s1 0) as [a|] eqn:E0; [|intros [= <- <-]; split; [exact GI1|]; split; [exact F| discriminate]].
  destruct (s1 1) as [b|] eqn:E1; [|intros [= <- <-]; split; [exact GI1|]; split; [exact F| discriminate]].
  destruct (s1 2) as [c|] eqn:E2; [|intros [= <- <-]; split; [exact GI1|]; split; [exact F| discriminate]].
  destruct (s1 3) as [d|] eqn:E3; [|intros [= <- <-]; split; [exact GI1|]; split; [exact F| discriminate]].
  destruct (s1 4) as [e|] eqn:E4; [|intros [= <- <-]; split; [exact GI1|]; split; [exact F| discriminate]].
  destruct leap; [|intros [= <- <-]; split; [exact GI1|]; split; [exact F| discriminate]].
  assert (FA : forall j, 0 <= j < 5 -> fresh 6 s ws j (znth [] j [a; b; c; d; e])).
  { intros j Hj. assert (j = 0 \/ j = 1 \/ j = 2 \/ j = 3 \/ j = 4) as [-> | [-> | [-> | [-> | ->]]]] by lia; apply F; assumption. }
  assert (SI : same_issue 6 [a; b; c; d; e]).
  { unfold same_issue. cbn [Z.eqb Pos.eqb]. intros k Hk.
    assert (G : forall j w, s1 j = Some w -> word w 3 / 2 ^ 16 = id1).
    { intros j w H. pose proof (GI1 j w H) as G1. cbn [fst] in G1. rewrite <- G1. unfold glo_superframe. rewrite Z.shiftr_div_pow2 by lia. reflexivity. }
    change (znth [] 0 [a; b; c; d; e]) with a. rewrite (G 0 a E0).
    assert (k = 0 \/ k = 1 \/ k = 2 \/ k = 3 \/ k = 4) as [-> | [-> | [-> | [-> | ->]]]] by lia; eapply G; eassumption. }
  intros [= <- <-]. split; [intros ? ? [=]|]. split.
  - split; [reflexivity|]. exists [a; b; c; d; e]. split; [reflexivity|]. split; [exact FA| exact SI].
  - intros x [= <-]. exists a, b, c, d, e. split; [reflexivity|]. split; [exact FA| exact SI].
Qed.

(** ** the whole converter state *)
Definition slots_of (st : ephst) (g p : Z) : slots :=
  if g =? 0 then es_gps st p else if g =? 3 then es_bds st p else if g =? 2 then es_gal st p else snd (es_glo st p).
Definition side_inv (st : ephst) (p : Z) : Prop :=
  (bds_d2 p = true -> forall j, es_bds st p j = None) /\ gal_inv (es_gal st p) /\ glo_inv (es_glo st p).
Notation step := (sfrbx_step gps_valid gal_ok bds_d2).
Notation run := (sfrbx_run gps_valid gal_ok bds_d2).

Lemma setp_same {A} (m : Z -> A) p v : setp m p v p = v.
Proof. unfold setp. rewrite Z.eqb_refl. reflexivity. Qed.
Lemma setp_other {A} (m : Z -> A) p v q : q <> p -> setp m p v q = m q.
Proof. intros H. unfold setp. replace (q =? p) with false by lia. reflexivity. Qed.
Lemma sat_dec (g p g' p' : Z) : {g = g' /\ p = p'} + {g <> g' \/ p <> p'}.
Proof. destruct (Z.eq_dec g g'), (Z.eq_dec p p'); auto. Qed.

(** what an output conveys, from the parts as stored *)
Definition made_of (o : eph_out) (fcn : Z) (parts : list (list Z)) : Prop :=
  match o with
  | EphGps _ tow frames => frames = map (drop 2) parts /\ gps_tow (znth [] 0 parts) = Some tow
  | EphBds _ frames => frames = parts
  | EphGal _ pages => pages = map gal_content parts
  | EphGlo _ f strings => f = (fcn + 1) mod 256 /\ strings = map glo_content parts
  | SbasRaw _ _ _ _ => False
  end.

Definition in_range (g p : Z) : Prop :=
  prn_in (if g =? 0 then cGPS else if g =? 3 then cBDS else if g =? 2 then cGAL else cGLO) p = true.
Lemma step_spec st e st' o : (forall p, side_inv st p) -> step st e = Some (st', o) ->
  (forall p, side_inv st' p) /\
  forall g p, eph_gnss g ->
    (~ from_sat g p e -> slots_of st' g p = slots_of st g p /\ forall x, o = Some x -> out_sat x <> (g, p)) /\
    (from_sat g p e ->
      match o with
      | None => (~ in_range g p /\ slots_of st' g p = slots_of st g p) \/
                (in_range g p /\ forall j w, slots_of st' g p j = Some w -> fresh g (slots_of st g p) (ev_words e) j w)
      | Some x => in_range g p /\ out_sat x = (g, p) /\ (forall j, slots_of st' g p j = None) /\ exists parts, len parts = parts_needed g /\
          (forall j, 0 <= j < parts_needed g -> fresh g (slots_of st g p) (ev_words e) j (znth [] j parts)) /\
          same_issue g parts /\ made_of x (ev_fcn e) parts
      end).
Proof.
  intros SI H.
  destruct e as [eg ep ef ews el et]. unfold step in H. cbn [ev_gnss ev_prn ev_fcn ev_words ev_leap ev_tow] in *.
  unfold from_sat. cbn [ev_gnss ev_prn ev_fcn ev_words].
  assert (SAME : forall x, st' = st -> o = x -> (eph_gnss eg -> x = None) -> (forall y, x = Some y -> fst (out_sat y) = 1) ->
     (x = None -> ~ in_range eg ep \/ ~ eph_gnss eg) ->
    (forall p, side_inv st' p) /\ forall g p, eph_gnss g ->
    (~ (eg = g /\ ep = p) -> slots_of st' g p = slots_of st g p /\ forall x, o = Some x -> out_sat x <> (g, p)) /\
    (eg = g /\ ep = p ->
      match o with
      | None => (~ in_range g p /\ slots_of st' g p = slots_of st g p) \/
                (in_range g p /\ forall j w, slots_of st' g p j = Some w -> fresh g (slots_of st g p) ews j w)
      | Some x => in_range g p /\ out_sat x = (g, p) /\ (forall j, slots_of st' g p j = None) /\ exists parts, len parts = parts_needed g /\
          (forall j, 0 <= j < parts_needed g -> fresh g (slots_of st g p) ews j (znth [] j parts)) /\
          same_issue g parts /\ made_of x ef parts
      end)).
  { intros x -> -> HN H1 HR. split; [exact SI|]. intros g p Hg. split.
    - intros _. split; [reflexivity|]. intros y Hy Q. specialize (H1 y Hy). rewrite Q in H1. cbn in H1. unfold eph_gnss in Hg. lia.
    - intros [<- <-]. rewrite (HN Hg). left. split; [|reflexivity]. destruct (HR (HN Hg)); [assumption| contradiction]. }
  destruct (eg =? 0) eqn:G0.
  { assert (eg = 0) by lia. subst eg. clear G0. cbn [Z.eqb] in H.
    destruct (negb (prn_in cGPS ep)) eqn:EP.
    { injection H as <- <-. apply (SAME None); auto; try discriminate. intros _. left. unfold in_range. cbn [Z.eqb]. intros Q. rewrite Q in EP. discriminate. }
    destruct (gps_step gps_valid ep (es_gps st ep) ews) as [s o'] eqn:ES. injection H as <- <-.
    apply gps_step_outcome in ES. destruct ES as [OC OX].
    split; [exact SI|]. intros g p Hg. split.
    - intros N. split.
      + unfold slots_of. cbn [es_gps es_bds es_gal es_glo]. destruct (g =? 0) eqn:E; [|reflexivity]. apply setp_other. intros ->. apply N. lia.
      + intros x ->. destruct (OX x eq_refl) as (a & b & c & tow & -> & _). cbn [out_sat]. intros [= Q1 Q2]. apply N. split; congruence.
    - intros [<- <-]. unfold slots_of. cbn [es_gps Z.eqb]. rewrite !setp_same.
      assert (IR : in_range 0 ep) by (unfold in_range; cbn [Z.eqb]; destruct (prn_in cGPS ep); [reflexivity| discriminate]).
      destruct o' as [x|].
      + destruct (OX x eq_refl) as (a & b & c & tow & -> & ET & FA & SS). destruct OC as [ON _]. split; [exact IR|]. split; [reflexivity|]. split; [exact ON|].
        exists [a; b; c]. repeat split; try reflexivity; try apply SS; assumption.
      + right. split; [exact IR| exact OC]. }
  destruct (eg =? 3) eqn:G3.
  { assert (eg = 3) by lia. subst eg. clear G0 G3. cbn [Z.eqb Pos.eqb] in H.
    destruct (negb (prn_in cBDS ep)) eqn:EP.
    { injection H as <- <-. apply (SAME None); auto; try discriminate. intros _. left. unfold in_range. cbn [Z.eqb Pos.eqb]. intros Q. rewrite Q in EP. discriminate. }
    destruct (bds_step bds_d2 ep (es_bds st ep) ews) as [s o'] eqn:ES. injection H as <- <-.
    apply bds_step_outcome in ES; [|apply SI]. destruct ES as [BD [OC OX]].
    split.
    { intros p. destruct (SI p) as (A & B & C). split; [|split; assumption]. cbn [es_bds]. intros D. destruct (Z.eq_dec p ep) as [->|N].
      - rewrite setp_same. exact (BD D).
      - rewrite setp_other by exact N. exact (A D). }
    intros g p Hg. split.
    - intros N. split.
      + unfold slots_of. cbn [es_gps es_bds es_gal es_glo]. destruct (g =? 0) eqn:E0; [reflexivity|]. destruct (g =? 3) eqn:E; [|reflexivity].
        apply setp_other. intros ->. apply N. lia.
      + intros x ->. destruct (OX x eq_refl) as (a & b & c & -> & _). cbn [out_sat]. intros [= Q1 Q2]. apply N. split; congruence.
    - intros [<- <-]. unfold slots_of. cbn [es_bds Z.eqb Pos.eqb]. rewrite !setp_same.
      assert (IR : in_range 3 ep) by (unfold in_range; cbn [Z.eqb Pos.eqb]; destruct (prn_in cBDS ep); [reflexivity| discriminate]).
      destruct o' as [x|].
      + destruct (OX x eq_refl) as (a & b & c & -> & FA & SS). destruct OC as [ON _]. split; [exact IR|]. split; [reflexivity|]. split; [exact ON|].
        exists [a; b; c]. split; [reflexivity|]. split; [exact FA|]. split; [exact SS| reflexivity].
      + right. split; [exact IR| exact OC]. }
  destruct (eg =? 2) eqn:G2.
  { assert (eg = 2) by lia. subst eg. clear G0 G2 G3. cbn [Z.eqb Pos.eqb] in H.
    destruct (negb (prn_in cGAL ep)) eqn:EP.
    { injection H as <- <-. apply (SAME None); auto; try discriminate. intros _. left. unfold in_range. cbn [Z.eqb Pos.eqb]. intros Q. rewrite Q in EP. discriminate. }
    destruct (gal_step gal_ok ep (es_gal st ep) ews) as [s o'] eqn:ES. injection H as <- <-.
    apply gal_step_outcome in ES; [|apply SI]. destruct ES as [BD [OC OX]].
    split.
    { intros p. destruct (SI p) as (A & B & C). split; [exact A|]. split; [|exact C]. cbn [es_gal]. destruct (Z.eq_dec p ep) as [->|N].
      - rewrite setp_same. exact BD.
      - rewrite setp_other by exact N. exact B. }
    intros g p Hg. split.
    - intros N. split.
      + unfold slots_of. cbn [es_gps es_bds es_gal es_glo]. destruct (g =? 0) eqn:E0; [reflexivity|]. destruct (g =? 3) eqn:E3; [reflexivity|].
        destruct (g =? 2) eqn:E; [|reflexivity]. apply setp_other. intros ->. apply N. lia.
      + intros x ->. destruct (OX x eq_refl) as (a & b & c & d & ee & -> & _). cbn [out_sat]. intros [= Q1 Q2]. apply N. split; congruence.
    - intros [<- <-]. unfold slots_of. cbn [es_gal Z.eqb Pos.eqb]. rewrite !setp_same.
      assert (IR : in_range 2 ep) by (unfold in_range; cbn [Z.eqb Pos.eqb]; destruct (prn_in cGAL ep); [reflexivity| discriminate]).
      destruct o' as [x|].
      + destruct (OX x eq_refl) as (a & b & c & d & ee & -> & FA & SS). destruct OC as [ON _]. split; [exact IR|]. split; [reflexivity|]. split; [exact ON|].
        exists [a; b; c; d; ee]. split; [reflexivity|]. split; [exact FA|]. split; [exact SS| reflexivity].
      + right. split; [exact IR| exact OC]. }
  destruct (eg =? 6) eqn:G6.
  { assert (eg = 6) by lia. subst eg. clear G0 G2 G3 G6. cbn [Z.eqb Pos.eqb] in H.
    destruct ((ep =? 255) || negb (prn_in cGLO ep)) eqn:EP.
    { injection H as <- <-. apply (SAME None); auto; try discriminate. intros _. left. unfold in_range. cbn [Z.eqb Pos.eqb]. intros Q.
      rewrite Q in EP. cbn [negb] in EP. unfold prn_in, first_prn, prn_count in Q. lia. }
    destruct (glo_step ep ef el (es_glo st ep) ews) as [[s o']|] eqn:ES; [|discriminate]. injection H as <- <-.
    apply glo_step_outcome in ES; [|apply SI]. destruct ES as [BD [OC OX]].
    split.
    { intros p. destruct (SI p) as (A & B & C). split; [exact A|]. split; [exact B|]. cbn [es_glo]. destruct (Z.eq_dec p ep) as [->|N].
      - rewrite setp_same. exact BD.
      - rewrite setp_other by exact N. exact C. }
    intros g p Hg. split.
    - intros N. split.
      + unfold slots_of. cbn [es_gps es_bds es_gal es_glo]. destruct (g =? 0) eqn:E0; [reflexivity|]. destruct (g =? 3) eqn:E3; [reflexivity|].
        destruct (g =? 2) eqn:E; [reflexivity|]. rewrite setp_other; [reflexivity|]. intros ->. apply N. unfold eph_gnss in Hg. lia.
      + intros x ->. destruct (OX x eq_refl) as (a & b & c & d & ee & -> & _). cbn [out_sat]. intros [= Q1 Q2]. apply N. split; congruence.
    - intros [<- <-]. unfold slots_of. cbn [es_glo Z.eqb Pos.eqb]. rewrite !setp_same.
      assert (IR : in_range 6 ep) by (unfold in_range; cbn [Z.eqb Pos.eqb]; destruct (prn_in cGLO ep); [reflexivity| rewrite orb_true_r in EP; discriminate]).
      destruct o' as [x|].
      + destruct (OX x eq_refl) as (a & b & c & d & ee & -> & FA & SS). destruct OC as [ON _]. split; [exact IR|]. split; [reflexivity|]. split; [exact ON|].
        exists [a; b; c; d; ee]. split; [reflexivity|]. split; [exact FA|]. split; [exact SS|]. split; reflexivity.
      + right. split; [exact IR| exact OC]. }
  assert (NE : ~ eph_gnss eg) by (unfold eph_gnss; lia).
  destruct (eg =? 1) eqn:G1.
  - destruct (sbas_tow et) as [tow|].
    + injection H as <- <-. apply (SAME (if negb (prn_in cSBAS ep) then None else sbas_step ep tow ews)); try reflexivity; try contradiction; auto.
      intros y. destruct (negb (prn_in cSBAS ep)); [discriminate|]. unfold sbas_step. destruct (_ && _); [discriminate|].
      cbv zeta. destruct (_ && _); [discriminate|]. destruct (negb _); [discriminate|]. intros [= <-]. reflexivity.
    + injection H as <- <-. apply (SAME None); auto; discriminate.
  - injection H as <- <-. apply (SAME None); auto; discriminate.
Qed.
End D.
