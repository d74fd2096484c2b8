From Verif Require Import Base Bitstring Bits_model Bits_proofs Bitstream_model Bitstream_proofs RtcmStation_model RtcmStation_spec RtcmStation_proofs
  RtcmEph_model RtcmEph_spec RtcmEph_proofs RtcmMsm_model Time_model Time_proofs Ssr_model Ssr_spec.

(** ** decoding *)
Lemma get_list_fields {A} (d : dec A) (ef : A -> list field) (P : A -> Prop) :
  (forall x fs r, P x -> d (fields_bits (ef x ++ fs) ++ r) = DOk x (fields_bits fs ++ r)) ->
  forall l fs r, Forall P l -> get_list d (length l) (fields_bits (flat_map ef l ++ fs) ++ r) = DOk l (fields_bits fs ++ r).
Proof.
  intros Hd l. induction l as [|x l IH]; intros fs r HP; [reflexivity|]. cbn [length get_list flat_map].
  unfold dbind at 1. rewrite <- app_assoc, Hd by (inversion HP; assumption). unfold dbind. rewrite IH by (inversion HP; assumption). reflexivity.
Qed.
Lemma get_list_img {W A} (d : dec A) (g : W -> A) (ef : W -> list field) (P : W -> Prop) :
  (forall x fs r, P x -> d (fields_bits (ef x ++ fs) ++ r) = DOk (g x) (fields_bits fs ++ r)) ->
  forall l fs r, Forall P l -> get_list d (length l) (fields_bits (flat_map ef l ++ fs) ++ r) = DOk (map g l) (fields_bits fs ++ r).
Proof.
  intros Hd l. induction l as [|x l IH]; intros fs r HP; [reflexivity|]. cbn [length get_list flat_map map].
  unfold dbind at 1. rewrite <- app_assoc, Hd by (inversion HP; assumption). unfold dbind. rewrite IH by (inversion HP; assumption). reflexivity.
Qed.
Lemma number_cases c k n : ssr_number c k = Some n ->
  to_constellation n = c /\ 0 <= n < 4096 /\ is_phase_bias n = (match k with SKPhase => true | _ => false end) /\
  is_orbit_clock n = (match k with SKOrbit | SKBoth => true | _ => false end) /\
  is_orbit n = (match k with SKOrbit => true | _ => false end) /\ is_clock n = (match k with SKClock => true | _ => false end) /\
  is_code_bias n = (match k with SKCode => true | _ => false end) /\
  epoch_bits c = Some (w_epoch c) /\ sat_bits c = Some (w_sat c).
Proof. destruct c, k; intros [= <-]; repeat split; try reflexivity; lia. Qed.
Lemma get_header_ok k h n fs r : wf_header k h n ->
  get_header (fields_bits (f_header k h ++ fs) ++ r) = DOk h (fields_bits fs ++ r).
Proof.
  intros (Hn & He & Hi & Hm & Hd & Hp & Hs & Hq & Hq' & Hx & Hy). destruct (number_cases _ _ _ Hn) as (C & B & P & OC & _ & _ & _ & EB & _).
  unfold get_header, f_header. cbn [app]. rewrite bind_u' by (first [reflexivity|unfold ubits; lia]). rewrite C, EB. cbn [need].
  rewrite bind_u' by (first [destruct (h_cons h); reflexivity|assumption]). do 2 (rewrite bind_u' by (first [reflexivity|assumption])).
  rewrite OC, P. rewrite Hq. rewrite <- Hq in Hq'.
  assert (ubits 6 n) by (rewrite <- Hq; exact Hq').
  destruct k; cbn [opt_bit app]; repeat first [rewrite bind_u' by (first [reflexivity|assumption|apply Hy])|rewrite bind_ret].
  all: unfold ret; f_equal; rewrite <- C; destruct h; cbn in *; try (destruct Hy as [-> ->]); subst; reflexivity.
Qed.
Lemma iode_bits_ok c k n : ssr_number c k = Some n -> k <> SKPhase -> iode_bits c = Some (match c with cGAL | cBDS => 10 | _ => 8 end).
Proof. destruct c, k; try discriminate; intros; try reflexivity; congruence. Qed.
Lemma get_orbit_ok c k n sat extra o fs r : ssr_number c k = Some n -> k <> SKPhase -> wf_orbit c o -> ubits 10 extra -> sat = o_sat o ->
  get_orbit c sat (fields_bits (f_orbit c extra o ++ fs) ++ r) = DOk o (fields_bits fs ++ r).
Proof.
  intros Hn Hk (W0 & W1 & W2 & W3 & W4 & W5 & W6 & W7) Hx ->. unfold get_orbit. rewrite (iode_bits_ok c k n Hn Hk). cbn [need]. unfold f_orbit.
  destruct c; cbn [app] in *; try (destruct k; (discriminate || (exfalso; apply Hk; reflexivity)));
  repeat first [rewrite bind_u' by (first [reflexivity|assumption]) | rewrite bind_ret | rewrite bind_s' by (first [reflexivity|assumption])];
  destruct o; reflexivity.
Qed.
Lemma attempt_s {B} n v fs r (f : option Z -> dec B) : 1 <=? n = true -> sbits n v ->
  dbind (attempt (get_s n)) f (fields_bits ((n, v) :: fs) ++ r) = f (Some v) (fields_bits fs ++ r).
Proof.
  intros H Hv. pose proof (bind_s' n v fs r (fun x => ret x) H Hv) as P. unfold dbind, attempt, ret in *.
  destruct (get_s n (fields_bits ((n, v) :: fs) ++ r)); try discriminate. now injection P as <- <-.
Qed.
Lemma get_clock_ok c w fs r : wf_clock c w ->
  get_clock (wk_sat w) (fields_bits (f_clock w ++ fs) ++ r) = DOk (clock_of w) (fields_bits fs ++ r).
Proof.
  intros (_ & W1 & W2 & W3). unfold get_clock, f_clock. cbn [app]. rewrite attempt_s by (first [reflexivity|assumption]).
  cbv iota. rewrite attempt_s by (first [reflexivity|assumption]). cbv iota. rewrite attempt_s by (first [reflexivity|assumption]). reflexivity.
Qed.
Lemma get_sat_ok c k n {B} v fs r (f : Z -> dec B) : ssr_number c k = Some n -> ubits (w_sat c) v ->
  dbind (get_sat c) f (fields_bits ((w_sat c, v) :: fs) ++ r) = f v (fields_bits fs ++ r).
Proof.
  intros Hn Hv. destruct (number_cases _ _ _ Hn) as (_ & _ & _ & _ & _ & _ & _ & _ & SB). unfold get_sat. rewrite SB. cbn [need].
  apply bind_u'; [destruct c; reflexivity|exact Hv].
Qed.
Lemma nat_of_len {A} k h (l : list A) : wf_header k h (len l) -> nat_of h = length l.
Proof. intros (_ & _ & _ & _ & _ & _ & _ & E & _). unfold nat_of. rewrite E. unfold len. lia. Qed.
Lemma bind_ok {A B} (d : dec A) (f : A -> dec B) bs a r : d bs = DOk a r -> dbind d f bs = f a r.
Proof. unfold dbind. now intros ->. Qed.
Lemma run_carries {A} (d : dec A) p fs a : carries p fs -> (forall pad, exists r, d (fields_bits (fs ++ []) ++ pad) = DOk a r) -> run_dec d p = Ok a.
Proof. intros (pad & E) H. destruct (H pad) as (r & Hr). rewrite app_nil_r in Hr. unfold run_dec. rewrite E, Hr. reflexivity. Qed.

Ltac begin_msg k l HP :=
  intros HP; pose proof HP as HP';
  match goal with |- Forall _ _ -> _ => idtac end.
Lemma decode_orbit_ok p h l : wf_header SKOrbit h (len l) -> Forall (fun xo => ubits 10 (fst xo) /\ wf_orbit (h_cons h) (snd xo)) l ->
  carries p (f_orbit_msg h l) -> run_dec decode_orbit p = Ok (h, map snd l).
Proof.
  intros Hh Hl Hc. apply (run_carries _ _ _ _ Hc). intros pad. unfold decode_orbit, f_orbit_msg. rewrite <- app_assoc.
  rewrite (bind_ok _ _ _ _ _ (get_header_ok _ _ _ _ _ Hh)). destruct Hh as (Hn & Hrest). destruct (number_cases _ _ _ Hn) as (_ & _ & _ & _ & IO & _).
  rewrite IO. cbn [negb]. rewrite (nat_of_len SKOrbit _ l) by (split; assumption).
  eexists. erewrite bind_ok; [reflexivity|].
  apply (get_list_img _ snd _ (fun xo => ubits 10 (fst xo) /\ wf_orbit (h_cons h) (snd xo))); [|exact Hl].
  intros [x o] fs r (Hx & Ho). cbn [app fst snd]. rewrite (get_sat_ok _ _ _ _ _ _ _ Hn) by (apply Ho).
  apply (get_orbit_ok _ _ _ _ _ _ _ _ Hn); [discriminate|exact Ho|exact Hx|reflexivity].
Qed.
Lemma decode_clock_ok p h l : wf_header SKClock h (len l) -> Forall (wf_clock (h_cons h)) l ->
  carries p (f_clock_msg h l) -> run_dec decode_clock p = Ok (h, map clock_of l).
Proof.
  intros Hh Hl Hc. apply (run_carries _ _ _ _ Hc). intros pad. unfold decode_clock, f_clock_msg. rewrite <- app_assoc.
  rewrite (bind_ok _ _ _ _ _ (get_header_ok _ _ _ _ _ Hh)). destruct Hh as (Hn & Hrest). destruct (number_cases _ _ _ Hn) as (_ & _ & _ & _ & _ & IC & _).
  rewrite IC. cbn [negb]. rewrite (nat_of_len SKClock _ l) by (split; assumption).
  eexists. erewrite bind_ok; [reflexivity|].
  apply (get_list_img _ clock_of _ (wf_clock (h_cons h))); [|exact Hl].
  intros w fs r Hw. cbn [app]. rewrite (get_sat_ok _ _ _ _ _ _ _ Hn) by (apply Hw). apply (get_clock_ok _ _ _ _ Hw).
Qed.
Lemma decode_both_ok p h l : wf_header SKBoth h (len l) ->
  Forall (fun x => ubits 10 (fst (fst x)) /\ wf_orbit (h_cons h) (snd (fst x)) /\ wf_clock (h_cons h) (snd x) /\ wk_sat (snd x) = o_sat (snd (fst x))) l ->
  carries p (f_both_msg h l) -> run_dec decode_orbit_clock p = Ok (h, map (fun x => (snd (fst x), clock_of (snd x))) l).
Proof.
  intros Hh Hl Hc. apply (run_carries _ _ _ _ Hc). intros pad. unfold decode_orbit_clock, f_both_msg. rewrite <- app_assoc.
  rewrite (bind_ok _ _ _ _ _ (get_header_ok _ _ _ _ _ Hh)). destruct Hh as (Hn & Hrest). destruct (number_cases _ _ _ Hn) as (_ & _ & _ & OC & _).
  rewrite OC. cbn [negb]. rewrite (nat_of_len SKBoth _ l) by (split; assumption).
  eexists. erewrite bind_ok; [reflexivity|].
  apply (get_list_img _ (fun x => (snd (fst x), clock_of (snd x))) _
    (fun x => ubits 10 (fst (fst x)) /\ wf_orbit (h_cons h) (snd (fst x)) /\ wf_clock (h_cons h) (snd x) /\ wk_sat (snd x) = o_sat (snd (fst x)))); [|exact Hl].
  intros [[x o] w] fs r (Hx & Ho & Hw & Hs). cbn [app fst snd] in *. rewrite (get_sat_ok _ _ _ _ _ _ _ Hn) by (apply Ho). rewrite <- app_assoc.
  erewrite bind_ok by (apply (get_orbit_ok _ _ _ _ _ _ _ _ Hn); [discriminate|exact Ho|exact Hx|reflexivity]).
  rewrite <- Hs. erewrite bind_ok by (apply (get_clock_ok _ _ _ _ Hw)). reflexivity.
Qed.
Lemma decode_code_ok p h l : wf_header SKCode h (len l) -> Forall (wf_code_sat (h_cons h)) l ->
  carries p (f_code_msg h l) -> run_dec decode_code_bias p = Ok (h, l).
Proof.
  intros Hh Hl Hc. apply (run_carries _ _ _ _ Hc). intros pad. unfold decode_code_bias, f_code_msg. rewrite <- app_assoc.
  rewrite (bind_ok _ _ _ _ _ (get_header_ok _ _ _ _ _ Hh)). destruct Hh as (Hn & Hrest). destruct (number_cases _ _ _ Hn) as (_ & _ & _ & _ & _ & _ & IC & _).
  rewrite IC. cbn [negb]. rewrite (nat_of_len SKCode _ l) by (split; assumption).
  eexists. erewrite bind_ok; [reflexivity|].
  apply (get_list_fields _ _ (wf_code_sat (h_cons h))); [|exact Hl].
  intros s fs r (H1 & H2 & H3). cbn [app]. rewrite (get_sat_ok _ _ _ _ _ _ _ Hn) by assumption.
  rewrite bind_u' by (first [reflexivity|unfold ubits; pose proof (len_nonneg (cb_biases s)); lia]).
  replace (Z.to_nat (len (cb_biases s))) with (length (cb_biases s)) by (unfold len; lia).
  erewrite bind_ok; [|apply (get_list_fields _ _ (fun b => ubits 5 (fst b) /\ sbits 14 (snd b))); [|exact H3]].
  - destruct s; reflexivity.
  - intros [i v] fs' r' (A & B). cbn [app fst snd]. rewrite bind_u' by (first [reflexivity|assumption]). rewrite bind_s' by (first [reflexivity|assumption]). reflexivity.
Qed.
Lemma decode_phase_ok p h l : wf_header SKPhase h (len l) -> Forall (wf_phase_sat (h_cons h)) l ->
  carries p (f_phase_msg h l) -> run_dec decode_phase_bias p = Ok (h, l).
Proof.
  intros Hh Hl Hc. apply (run_carries _ _ _ _ Hc). intros pad. unfold decode_phase_bias, f_phase_msg. rewrite <- app_assoc.
  rewrite (bind_ok _ _ _ _ _ (get_header_ok _ _ _ _ _ Hh)). destruct Hh as (Hn & Hrest). destruct (number_cases _ _ _ Hn) as (_ & _ & IC & _).
  rewrite IC. cbn [negb]. rewrite (nat_of_len SKPhase _ l) by (split; assumption).
  eexists. erewrite bind_ok; [reflexivity|].
  apply (get_list_fields _ _ (wf_phase_sat (h_cons h))); [|exact Hl].
  intros s fs r (H1 & H2 & H3 & H4 & H5). cbn [app]. rewrite (get_sat_ok _ _ _ _ _ _ _ Hn) by assumption.
  rewrite bind_u' by (first [reflexivity|unfold ubits; pose proof (len_nonneg (pb_biases s)); lia]).
  rewrite bind_u' by (first [reflexivity|assumption]). rewrite bind_s' by (first [reflexivity|assumption]).
  replace (Z.to_nat (len (pb_biases s))) with (length (pb_biases s)) by (unfold len; lia).
  erewrite bind_ok; [|eapply get_list_fields; [|exact H5]].
  - destruct s; reflexivity.
  - intros b fs' r' (A & B & C & D & E). cbn [app]. do 4 rewrite bind_u' by (first [reflexivity|assumption]). rewrite bind_s' by (first [reflexivity|assumption]).
    destruct b; reflexivity.
Qed.
(** the dispatcher's message number is the first field *)
Lemma message_number_bits p n fs : bytes p -> 0 <= n < 4096 -> carries p ((12, n) :: fs) -> message_number p = n.
Proof.
  intros Hp Hn (pad & E). unfold message_number.
  assert (2 <= len p) as L.
  { assert (len (bits_of_bytes p) = 8 * len p) as X by apply len_bits_of_bytes. rewrite E in X. rewrite fields_bits_cons, !len_app, len_bits_be in X.
    pose proof (len_nonneg (fields_bits fs)). pose proof (len_nonneg pad). lia. }
  destruct p as [|a [|b p]]; [cbn in L; lia|cbn in L; lia|]. change (znth 0 0 (a :: b :: p)) with a. change (znth 0 1 (a :: b :: p)) with b.
  assert (byte a /\ byte b) as [Ha Hb] by (inversion Hp as [|? ? ? Hp']; inversion Hp'; split; assumption).
  pose proof (get_u_be 12 n (fields_bits fs ++ pad) ltac:(lia) ltac:(lia)) as G. rewrite app_assoc, <- fields_bits_cons, <- E in G.
  unfold get_u in G. destruct (Z.ltb_spec (len (bits_of_bytes (a :: b :: p))) 12) as [X|_]; [rewrite len_bits_of_bytes in X; unfold len in *; cbn [length] in *; lia|].
  assert (val_be (take 12 (bits_of_bytes (a :: b :: p))) = n) as <- by congruence.
  replace (take 12 (bits_of_bytes (a :: b :: p))) with (bits_be 8 a ++ bits_be 4 (Z.shiftr b 4)).
  - rewrite val_be_app, !val_bits_be, len_bits_be. unfold byte in *. change (2 ^ Z.of_nat 8) with 256. change (2 ^ Z.of_nat 4) with 16.
    rewrite (Z.mod_small a) by lia. change 15 with (Z.ones 4). rewrite Z.land_ones by lia. change (2 ^ 4) with 16.
    rewrite lor_shiftl_add; [reflexivity|lia|]. change (2 ^ 4) with 16. apply Z.mod_pos_bound. lia.
  - unfold bits_of_bytes. cbn [flat_map]. rewrite take_app_r by (rewrite len_bits_be; lia). rewrite len_bits_be. f_equal.
    rewrite take_app_l by (rewrite len_bits_be; cbn; lia). change (Z.of_nat 8) with 8. change (12 - 8) with 4.
    cbn [bits_be]. rewrite !Z.shiftr_spec by lia. reflexivity.
Qed.

(** ** dispatch *)
Lemma dispatch_cases c k n : ssr_number c k = Some n ->
  mem n [1057; 1063; 1240; 1246; 1258] = (match k with SKOrbit => true | _ => false end) /\
  mem n [1058; 1064; 1241; 1247; 1259] = (match k with SKClock => true | _ => false end) /\
  mem n [1059; 1065; 1242; 1248; 1260] = (match k with SKCode => true | _ => false end) /\
  mem n [1060; 1066; 1243; 1249; 1261] = (match k with SKBoth => true | _ => false end) /\
  mem n [1265; 1266; 1267; 1268; 1269; 1270] = (match k with SKPhase => true | _ => false end).
Proof. destruct c, k; intros [= <-]; repeat split; reflexivity. Qed.
Lemma f_header_first k h : exists fs, f_header k h = (12, h_num h) :: fs.
Proof. eexists. reflexivity. Qed.
Lemma number_of_payload k h n fs p : bytes p -> wf_header k h n -> carries p (f_header k h ++ fs) -> message_number p = h_num h.
Proof.
  intros Hp (Hn & _) Hc. destruct (number_cases _ _ _ Hn) as (_ & B & _). destruct (f_header_first k h) as (fs' & E). rewrite E in Hc.
  exact (message_number_bits p _ _ Hp B Hc).
Qed.
Ltac classify_with Hp Hh Hc lem :=
  unfold classify; rewrite (number_of_payload _ _ _ _ _ Hp Hh Hc); destruct Hh as (Hn & Hrest);
  destruct (dispatch_cases _ _ _ Hn) as (D1 & D2 & D3 & D4 & D5); rewrite ?D1, ?D2, ?D3, ?D4, ?D5; cbv beta zeta iota.
Lemma classify_orbit p h l : bytes p -> wf_header SKOrbit h (len l) -> Forall (fun xo => ubits 10 (fst xo) /\ wf_orbit (h_cons h) (snd xo)) l ->
  carries p (f_orbit_msg h l) -> classify p = Some (MOrbit h (map snd l)).
Proof. intros Hp Hh Hl Hc. pose proof (decode_orbit_ok p h l Hh Hl Hc) as E. classify_with Hp Hh Hc E. rewrite E. reflexivity. Qed.
Lemma classify_clock p h l : bytes p -> wf_header SKClock h (len l) -> Forall (wf_clock (h_cons h)) l ->
  carries p (f_clock_msg h l) -> classify p = Some (MClock h (map clock_of l)).
Proof. intros Hp Hh Hl Hc. pose proof (decode_clock_ok p h l Hh Hl Hc) as E. classify_with Hp Hh Hc E. rewrite E. reflexivity. Qed.
Lemma classify_both p h l : bytes p -> wf_header SKBoth h (len l) ->
  Forall (fun x => ubits 10 (fst (fst x)) /\ wf_orbit (h_cons h) (snd (fst x)) /\ wf_clock (h_cons h) (snd x) /\ wk_sat (snd x) = o_sat (snd (fst x))) l ->
  carries p (f_both_msg h l) -> classify p = Some (MBoth h (map (fun x => (snd (fst x), clock_of (snd x))) l)).
Proof. intros Hp Hh Hl Hc. pose proof (decode_both_ok p h l Hh Hl Hc) as E. classify_with Hp Hh Hc E. rewrite E. reflexivity. Qed.
Lemma classify_code p h l : bytes p -> wf_header SKCode h (len l) -> Forall (wf_code_sat (h_cons h)) l ->
  carries p (f_code_msg h l) -> classify p = Some (MCode h l).
Proof. intros Hp Hh Hl Hc. pose proof (decode_code_ok p h l Hh Hl Hc) as E. classify_with Hp Hh Hc E. rewrite E. reflexivity. Qed.
Lemma classify_phase p h l : bytes p -> wf_header SKPhase h (len l) -> Forall (wf_phase_sat (h_cons h)) l ->
  carries p (f_phase_msg h l) -> classify p = Some (MPhase h l).
Proof. intros Hp Hh Hl Hc. pose proof (decode_phase_ok p h l Hh Hl Hc) as E. classify_with Hp Hh Hc E. rewrite E. reflexivity. Qed.

(** ** what any accepted payload looks like *)
Lemma get_header_inv bs h r : get_header bs = DOk h r -> 0 <= h_epoch h < 2 ^ 20 /\ 0 <= h_nsats h < 64 /\ h_cons h = to_constellation (h_num h) /\ h_cons h <> cINVALID.
Proof.
  unfold get_header. intros E. destruct (dbind_ok _ _ _ _ _ E) as (num & r1 & _ & E1). clear E.
  destruct (epoch_bits (to_constellation num)) as [nb|] eqn:EB; [|discriminate]. cbn [need] in E1.
  assert (0 <= nb <= 20) as Hnb by (destruct (to_constellation num); cbn in EB; try discriminate; injection EB as <-; lia).
  assert (to_constellation num <> cINVALID) as Hc by (intros X; rewrite X in EB; discriminate).
  assert (forall n b v r, 0 <= n -> get_u n b = DOk v r -> 0 <= v < 2 ^ n) as GU.
  { intros n b v r0 Hn. unfold get_u. destruct (len b <? n) eqn:L; [discriminate|]. apply Z.ltb_ge in L. intros X.
    assert (v = val_be (take n b)) as -> by congruence. pose proof (val_be_range (take n b)) as V. rewrite len_take in V.
    replace (Z.min (Z.max 0 n) (len b)) with n in V by lia. exact V. }
  destruct (dbind_ok _ _ _ _ _ E1) as (ep & r2 & G1 & E2). clear E1. apply GU in G1; [|lia].
  do 7 (match goal with E : dbind _ _ _ = DOk h r |- _ => destruct (dbind_ok _ _ _ _ _ E) as (? & ? & _ & ?); clear E end).
  match goal with E : dbind _ _ _ = DOk h r |- _ => destruct (dbind_ok _ _ _ _ _ E) as (? & ? & _ & E3); clear E end.
  destruct (dbind_ok _ _ _ _ _ E3) as (ns & ? & G2 & E4). clear E3. apply GU in G2; [|lia]. unfold ret in E4.
  assert (h = mkhdr num ep (to_constellation num) x x1 x3 x5 x7 x9 x11 x13 ns) as -> by congruence. cbn [h_epoch h_nsats h_cons h_num].
  split; [|split; [exact G2|split; [reflexivity|exact Hc]]]. split; [lia|]. eapply Z.lt_le_trans; [apply G1|]. apply Z.pow_le_mono_r; lia.
Qed.
Lemma get_list_len {A} (d : dec A) n bs l r : get_list d n bs = DOk l r -> length l = n.
Proof.
  revert bs l r. induction n as [|n IH]; intros bs l r E; cbn [get_list] in E; [unfold ret in E; assert (l = []) as -> by congruence; reflexivity|].
  destruct (dbind_ok _ _ _ _ _ E) as (a & r1 & _ & E1). destruct (dbind_ok _ _ _ _ _ E1) as (l' & r2 & E2 & E3). unfold ret in E3.
  assert (l = a :: l') as -> by congruence. cbn [length]. f_equal. exact (IH _ _ _ E2).
Qed.
Lemma list_msg_inv {A B} (test : hdr -> bool) (d : hdr -> dec A) (g : hdr -> list A -> B) bs m r :
  dbind get_header (fun h => if test h then mismatch else dbind (get_list (d h) (nat_of h)) (fun l => ret (g h l))) bs = DOk m r ->
  exists h l, m = g h l /\ len l = h_nsats h /\ test h = false /\
    0 <= h_epoch h < 2 ^ 20 /\ 0 <= h_nsats h < 64 /\ h_cons h = to_constellation (h_num h) /\ h_cons h <> cINVALID.
Proof.
  intros E. destruct (dbind_ok _ _ _ _ _ E) as (h & r1 & E1 & E2). apply get_header_inv in E1. destruct E1 as (H1 & H2 & H3 & H4).
  destruct (test h) eqn:T; [discriminate|]. destruct (dbind_ok _ _ _ _ _ E2) as (l & r2 & E3 & E4). apply get_list_len in E3.
  exists h, l. unfold ret in E4. split; [congruence|]. split; [unfold len, nat_of in *; lia|]. auto.
Qed.

(** ** time *)
Lemma ssr_time_good e leap h : good_env e leap -> 0 <= h_epoch h < 2 ^ 20 -> exists wt, ssr_time e h = Some wt /\
  (time_sec_valid wt = true -> 0 <= fst wt < 32767 /\ 0 <= snd wt < 604800 /\ denotes (h_cons h) leap (h_epoch h) (fst wt) (snd wt) /\
     2 * Z.abs ((fst wt * 604800 + snd wt) * 1000 - (wn (e_rover e) * 604800000 + tow (e_rover e))) <= period (h_cons h) * 1000) /\
  (h_epoch h < period (h_cons h) -> h_cons h <> cINVALID -> time_sec_valid wt = true).
Proof.
  intros (Ht & Hw & Hl & Hl') He. unfold ssr_time. rewrite Hl. set (R := e_rover e) in *. set (E := h_epoch h) in *. change (2 ^ 20) with 1048576 in He.
  assert (gps_time_valid R = true) as HR by (apply gps_valid_spec; unfold WEEK_MS; lia).
  assert (forall tw, 0 <= tw -> tw mod 1000 = 0 -> exists t, compute_gps_message_time tw R = Some t /\
    (604800000 <= tw -> t = T_UNKNOWN) /\ (tw < 604800000 -> tow t = tw /\ 0 <= wn t < 32767 /\
       2 * Z.abs ((wn t * 604800 + tw / 1000) * 1000 - (wn R * 604800000 + tow R)) <= 604800000)) as G.
  { intros tw H0 Hm. destruct (Z.lt_ge_cases tw 604800000) as [L|L].
    - destruct (gps_message_time_spec tw R) as (t & A & B & C & D); [unfold WEEK_MS; lia|exact HR|unfold INT16_MAX; lia|].
      exists t. split; [exact A|]. split; [lia|]. intros _. split; [exact B|]. apply gps_valid_spec in C. unfold abs_ms, WEEK_MS in *. rewrite B in D.
      assert (tw = 1000 * (tw / 1000)) by (rewrite (Z.div_mod tw 1000) at 1 by lia; lia). split; lia.
    - exists T_UNKNOWN. split; [unfold compute_gps_message_time, WEEK_MS; destruct (Z.leb_spec 604800000 tw); [reflexivity|lia]|]. split; [reflexivity|lia]. }
  assert (forall w s, 0 <= w < 32767 -> 0 <= s < 604800 -> time_sec_valid (w mod 65536, s) = true) as TV.
  { intros w s A B. unfold time_sec_valid. cbn [fst snd]. rewrite Z.mod_small by lia. destruct (Z.eqb_spec w 65535); [lia|].
    destruct (Z.ltb_spec w 32767); [|lia]. destruct (Z.ltb_spec s 604800); [reflexivity|lia]. }
  assert (time_sec_valid (wn T_UNKNOWN mod 65536, tow T_UNKNOWN / 1000) = false) as TU by reflexivity.
  assert (forall c tw off, c <> cGLO -> off = offset c leap -> 0 <= tw -> tw mod 1000 = 0 -> (tw / 1000 - off - E) mod 604800 = 0 ->
    (E < 604800 -> tw < 604800000) ->
    exists wt, match compute_gps_message_time tw R with None => None | Some t => Some (wn t mod 65536, tow t / 1000) end = Some wt /\
    (time_sec_valid wt = true -> 0 <= fst wt < 32767 /\ 0 <= snd wt < 604800 /\ denotes c leap E (fst wt) (snd wt) /\
     2 * Z.abs ((fst wt * 604800 + snd wt) * 1000 - (wn R * 604800000 + tow R)) <= period c * 1000) /\
    (E < period c -> c <> cINVALID -> time_sec_valid wt = true)) as GG.
  { intros c tw off Hc Ho H0 H1 H2 H3. assert (period c = 604800) as HP by (destruct c; try reflexivity; congruence).
    destruct (G tw H0 H1) as (t & A & B & C). rewrite A. eexists. split; [reflexivity|]. rewrite HP.
    destruct (Z.lt_ge_cases tw 604800000) as [L|L].
    - destruct (C L) as (C1 & C2 & C3). rewrite C1. cbn [fst snd]. rewrite Z.mod_small by lia.
      assert (0 <= tw / 1000 < 604800) as Q by (split; [apply Z.div_pos; lia|apply Z.div_lt_upper_bound; lia]).
      split.
      + intros _. split; [lia|]. split; [exact Q|]. split; [|lia]. unfold denotes. rewrite HP, <- Ho. rewrite <- H2.
        replace (wn t * 604800 + tw / 1000 - off - E) with (tw / 1000 - off - E + wn t * 604800) by ring. apply Z.mod_add. lia.
      + intros _ _. rewrite <- (Z.mod_small (wn t) 65536) by lia. apply TV; lia.
    - rewrite (B L). split; [intros X; rewrite TU in X; discriminate|]. intros X _. specialize (H3 X). lia. }
  assert (forall z, (z * 1000) mod 1000 = 0) as M0 by (intros; apply Z.mod_mul; lia).
  assert (forall z, z * 1000 / 1000 = z) as D0 by (intros; apply Z.div_mul; lia).
  destruct (h_cons h).
  1,2,5,6,7: apply (GG _ (E * 1000) 0); [discriminate|reflexivity|lia|apply M0|rewrite D0; replace (E - 0 - E) with 0 by ring; reflexivity|lia].
  - (* GLO *)
    destruct (Z.lt_ge_cases (E * 1000) (DAY_MS + 1000)) as [L|L].
    + destruct (glo_time_spec (E * 1000) R leap) as (t & A & B & C & D); [lia|exact HR|unfold INT16_MAX; lia|exact Hl'|].
      rewrite A. cbn [snd]. eexists. split; [reflexivity|]. cbn [fst snd period]. apply gps_valid_spec in B. unfold abs_ms, DAY_MS, HOUR_MS, WEEK_MS in *.
      apply Z.mod_divide in D; [|lia]. destruct D as (q & D).
      assert (tow t = 1000 * (tow t / 1000)) as T1.
      { assert (tow t = (E - 10800 + leap + q * 86400 - wn t * 604800) * 1000) as -> by lia. rewrite D0. lia. }
      assert (0 <= wn t < 32767) as W by (destruct B; lia). rewrite Z.mod_small by lia.
      assert (0 <= tow t / 1000 < 604800) by lia.
      split.
      * intros _. split; [exact W|]. split; [lia|]. split; [|lia]. unfold denotes, offset, period. apply Z.mod_divide; [lia|]. exists q. lia.
      * intros _ _. rewrite <- (Z.mod_small (wn t) 65536) by lia. apply TV; lia.
    + exists (65535, 0). unfold compute_glo_time. destruct (Z.leb_spec (DAY_MS + 1000) (E * 1000)); [|lia]. cbn [snd]. split; [reflexivity|].
      split; [discriminate|]. cbn [period]. unfold DAY_MS in *. lia.
  - (* BDS *)
    assert (beidou_tow_to_gps_tow (E * 1000) = (if 604800 <=? E + 14 then E + 14 - 604800 else E + 14) * 1000) as ->.
    { unfold beidou_tow_to_gps_tow, WEEK_MS. rewrite Z.mod_small by lia. destruct (Z.leb_spec 604800 (E + 14)), (Z.leb_spec 604800000 (E * 1000 + 14000)); lia. }
    apply (GG _ _ 14); [discriminate|reflexivity| |apply M0| |].
    + destruct (Z.leb_spec 604800 (E + 14)); lia.
    + rewrite D0. destruct (Z.leb_spec 604800 (E + 14)).
      * replace (E + 14 - 604800 - 14 - E) with (0 + -1 * 604800) by ring. apply Z.mod_add. lia.
      * replace (E + 14 - 14 - E) with 0 by ring. reflexivity.
    + destruct (Z.leb_spec 604800 (E + 14)); lia.
Qed.

(** ** conversion *)
Definition ident (wt : Z * Z) (h : hdr) (sat : Z) : ssr_id := mkid (fst wt) (snd wt) (l1_code (h_cons h)) sat (h_interval h) (h_iod h).
Lemma per_sat_ok {A} e h wt (so : A -> option Z) em l : ssr_time e h = Some wt ->
  per_sat e h so em l = Some (if time_sec_valid wt then flat_map (fun a => match so a with Some s => em (ident wt h s) a | None => [] end) l else []).
Proof.
  intros E. induction l as [|a l IH]; cbn [per_sat flat_map]; [destruct (time_sec_valid wt); reflexivity|].
  unfold ssr_ident. rewrite E, IH. destruct (so a) as [s|]; [|reflexivity]. destruct (time_sec_valid wt); reflexivity.
Qed.
Lemma flat_map_single {A B} (f : A -> B) l : flat_map (fun a => [f a]) l = map f l.
Proof. induction l; [reflexivity|]. cbn. now f_equal. Qed.

(** ** the phase bias splitting loop *)
Lemma phase_loop_ok (mk : list pbias -> ssr_out) l : forall acc count, len acc < 30 -> 0 <= count -> (count = 0 -> acc = []) ->
  (0 < count -> acc <> [] \/ l <> [] \/ True) ->
  exists parts, phase_loop mk acc count l = map mk parts /\ concat parts = acc ++ l /\ Forall (fun b => len b <= 30) parts /\
    (len acc + len l <= 30 -> (count = 0 \/ acc ++ l <> []) -> parts = [acc ++ l]) /\ (acc ++ l <> [] -> Forall (fun b => b <> []) parts).
Proof.
  induction l as [|b l IH]; intros acc count Ha Hc H0 _; cbn [phase_loop].
  - destruct (Z.eqb_spec count 0) as [->|Hn]; cbn [orb].
    + exists [[]]. rewrite (H0 eq_refl). cbn [app concat map]. repeat split; auto. repeat constructor; unfold len; cbn; lia.
    + destruct (Z.ltb_spec 0 (len acc)) as [L|L].
      * exists [acc]. rewrite app_nil_r. cbn [map concat]. rewrite app_nil_r. repeat split; auto. constructor; [lia|constructor].
      * assert (acc = []) as -> by (destruct acc; [reflexivity|unfold len in L; cbn in L; lia]).
        exists []. cbn. repeat split; auto. intros _ [X|X]; [congruence|contradiction].
  - unfold PHASE_MAX. rewrite len_app. change (len [b]) with 1. destruct (Z.leb_spec 30 (len acc + 1)) as [L|L].
    + destruct (IH [] (count + 1)) as (ps & A & B & C & D & E); [cbn; lia|lia|reflexivity|auto|].
      exists ((acc ++ [b]) :: ps). rewrite A. cbn [map concat]. rewrite B. cbn [app] in *. rewrite <- app_assoc. split; [reflexivity|]. split; [reflexivity|].
      split; [constructor; [rewrite len_app; change (len [b]) with 1; lia|exact C]|]. rewrite len_cons. split.
      * intros X _. assert (l = []) as -> by (destruct l; [reflexivity|rewrite len_cons in X; pose proof (len_nonneg l); lia]).
        destruct ps as [|x ps]; [reflexivity|]. cbn [phase_loop] in A. rewrite (proj2 (Z.eqb_neq (count + 1) 0)) in A by lia. cbn in A. discriminate.
      * intros _. constructor; [destruct acc; discriminate|]. destruct l as [|x l]; [|apply E; discriminate].
        cbn [phase_loop] in A. rewrite (proj2 (Z.eqb_neq (count + 1) 0)) in A by lia. cbn in A. destruct ps; [constructor|discriminate].
    + destruct (IH (acc ++ [b]) (count + 1)) as (ps & A & B & C & D & E); [rewrite len_app; change (len [b]) with 1; lia|lia|lia|auto|].
      exists ps. rewrite A. rewrite <- app_assoc in *. cbn [app] in *. split; [reflexivity|]. split; [exact B|]. split; [exact C|].
      rewrite len_app in D. change (len [b]) with 1 in D. rewrite len_cons. split.
      * intros X _. apply D; [lia|]. right. destruct acc; discriminate.
      * intros _. apply E. destruct acc; discriminate.
Qed.
Lemma phase_loop_full (mk : list pbias -> ssr_out) l : exists parts, phase_loop mk [] 0 l = map mk parts /\ concat parts = l /\
  Forall (fun b => len b <= 30) parts /\ (len l <= 30 -> parts = [l]) /\ (l <> [] -> Forall (fun b => b <> []) parts).
Proof.
  destruct (phase_loop_ok mk l [] 0) as (ps & A & B & C & D & E); [cbn; lia|lia|auto|auto|]. cbn [app] in *.
  exists ps. split; [exact A|]. split; [exact B|]. split; [exact C|]. split; [|exact E]. intros X. apply D; [exact X|left; reflexivity].
Qed.

(** ** the cache against the history *)
Definition entry_ok (x : centry) (hist : list ssr_msg) : Prop :=
  match hist with
  | [] => has_clock x = false /\ has_orbit x = false
  | m :: _ => if paired hist then has_clock x = false /\ has_orbit x = false
              else match m with
                   | MOrbit h l => x = mkentry false true (Some (UOrbit h l))
                   | MClock h l => x = mkentry true false (Some (UClock h l))
                   | _ => False
                   end
  end.
Lemma cons_eqb_spec a b : reflect (a = b) (cons_eqb a b).
Proof. destruct a, b; constructor; congruence. Qed.
Lemma cons_eqb_refl a : cons_eqb a a = true. Proof. destruct a; reflexivity. Qed.
Lemma received_app c a b : received c (a ++ b) = received c b ++ received c a.
Proof. induction a as [|p a IH]; cbn [app received]; [now rewrite app_nil_r|]. rewrite IH, app_assoc. reflexivity. Qed.
Lemma received_cons_of c ps m : In m (received c ps) -> exists h, separate m = Some h /\ h_cons h = c.
Proof.
  induction ps as [|p ps IH]; cbn [received]; [contradiction|]. rewrite in_app_iff. intros [X|X]; [auto|].
  destruct (classify p) as [m'|]; [|contradiction]. destruct (separate_of c m') eqn:E; [|contradiction]. destruct X as [<-|[]].
  unfold separate_of in E. destruct (separate m') as [h|]; [|discriminate]. exists h. split; [reflexivity|]. now destruct (cons_eqb_spec (h_cons h) c).
Qed.
(** joining the newest message with its predecessor *)
Definition join (e : env) (m p : ssr_msg) : outs :=
  match m, p with
  | MOrbit h os, MClock _ ks => separate_to_sbp e h os ks
  | MClock _ ks, MOrbit h os => separate_to_sbp e h os ks
  | _, _ => Some []
  end.
Lemma paired_cons2 m p r : paired (m :: p :: r) = fits m p && negb (paired (p :: r)). Proof. reflexivity. Qed.
Lemma step_separate e c m h hist c' o : separate m = Some h -> entry_ok (c (h_cons h)) hist -> (forall x, In x hist -> exists hx, separate x = Some hx /\ h_cons hx = h_cons h) ->
  ssr_step e c m = Some (c', o) ->
  entry_ok (c' (h_cons h)) (m :: hist) /\ (forall k, k <> h_cons h -> c' k = c k) /\
  (if paired (m :: hist) then exists p r, hist = p :: r /\ join e m p = Some o else o = []).
Proof.
  intros Hs He Hh E.
  assert (forall x, set_entry c (h_cons h) x (h_cons h) = x) as S1 by (intros; unfold set_entry; now rewrite cons_eqb_refl).
  assert (forall x k, k <> h_cons h -> set_entry c (h_cons h) x k = c k) as S2.
  { intros x k Hk. unfold set_entry. destruct (cons_eqb_spec (h_cons h) k); congruence. }
  destruct m as [h0 os|h0 ks| | |]; try discriminate; injection Hs as ->; cbn [ssr_step] in E.
  - unfold on_orbit in E.
    destruct hist as [|p hist].
    { destruct He as [H1 H2]. rewrite H1, H2 in E. cbn in E. injection E as <- <-. split; [cbn; apply S1|]. split; [intros; now apply S2|]. reflexivity. }
    unfold entry_ok in He. rewrite paired_cons2. destruct (paired (p :: hist)) eqn:P.
    { destruct He as [H1 H2]. rewrite H1, H2 in E. cbn [andb negb] in E. injection E as <- <-.
      cbn [negb]. rewrite andb_false_r. split; [unfold entry_ok; rewrite paired_cons2; idtac; rewrite P; cbn [negb]; rewrite andb_false_r; apply S1|].
      split; [intros; now apply S2|]. reflexivity. }
    cbn [negb]. rewrite andb_true_r.
    destruct p as [hp osp|hp ksp| | |]; try contradiction.
    + rewrite He in E. cbn [has_clock has_orbit andb negb] in E. injection E as <- <-.
      split; [unfold entry_ok; rewrite paired_cons2; cbn [fits andb]; apply S1|]. split; [intros; now apply S2|]. reflexivity.
    + rewrite He in E. cbn [has_clock has_orbit andb negb c_data] in E. unfold same_epoch in E.
      destruct (Hh (MClock hp ksp)) as (hx & X1 & X2); [left; reflexivity|]. injection X1 as <-. rewrite X2, cons_eqb_refl, andb_true_r in E.
      rewrite (Z.eqb_sym (h_epoch hp)), (Z.eqb_sym (h_iod hp)) in E.
      cbn [fits]. destruct ((h_epoch h =? h_epoch hp) && (h_iod h =? h_iod hp)) eqn:Q.
      * destruct (separate_to_sbp e h os ksp) as [o'|] eqn:J; [|discriminate]. injection E as <- <-.
        split; [|split; [intros; now apply S2|exists (MClock hp ksp), hist; split; [reflexivity|exact J]]].
        unfold entry_ok. rewrite paired_cons2. cbn [fits]. idtac.
        rewrite Q, P. cbn [andb negb]. rewrite S1. split; reflexivity.
      * injection E as <- <-. split; [|split; [intros; now apply S2|reflexivity]].
        unfold entry_ok. rewrite paired_cons2. cbn [fits]. rewrite Q. cbn [andb]. apply S1.
  - unfold on_clock in E.
    destruct hist as [|p hist].
    { destruct He as [H1 H2]. rewrite H1, H2 in E. cbn in E. injection E as <- <-. split; [cbn; apply S1|]. split; [intros; now apply S2|]. reflexivity. }
    unfold entry_ok in He. rewrite paired_cons2. destruct (paired (p :: hist)) eqn:P.
    { destruct He as [H1 H2]. rewrite H1, H2 in E. cbn [andb negb] in E. injection E as <- <-.
      cbn [negb]. rewrite andb_false_r. split; [unfold entry_ok; rewrite paired_cons2; idtac; rewrite P; cbn [negb]; rewrite andb_false_r; apply S1|].
      split; [intros; now apply S2|]. reflexivity. }
    cbn [negb]. rewrite andb_true_r.
    destruct p as [hp osp|hp ksp| | |]; try contradiction.
    + rewrite He in E. cbn [has_clock has_orbit andb negb c_data] in E. unfold same_epoch in E.
      destruct (Hh (MOrbit hp osp)) as (hx & X1 & X2); [left; reflexivity|]. injection X1 as <-. rewrite X2, cons_eqb_refl, andb_true_r in E.
      rewrite (Z.eqb_sym (h_epoch hp)), (Z.eqb_sym (h_iod hp)) in E.
      cbn [fits]. destruct ((h_epoch h =? h_epoch hp) && (h_iod h =? h_iod hp)) eqn:Q.
      * destruct (separate_to_sbp e hp osp ks) as [o'|] eqn:J; [|discriminate]. injection E as <- <-.
        split; [|split; [intros; now apply S2|exists (MOrbit hp osp), hist; split; [reflexivity|exact J]]].
        unfold entry_ok. rewrite paired_cons2. cbn [fits]. idtac.
        rewrite Q, P. cbn [andb negb]. rewrite S1. split; reflexivity.
      * injection E as <- <-. split; [|split; [intros; now apply S2|reflexivity]].
        unfold entry_ok. rewrite paired_cons2. cbn [fits]. rewrite Q. cbn [andb]. apply S1.
    + rewrite He in E. cbn [has_clock has_orbit andb negb] in E. injection E as <- <-.
      split; [unfold entry_ok; rewrite paired_cons2; cbn [fits andb]; apply S1|]. split; [intros; now apply S2|]. reflexivity.
Qed.
Lemma step_other e c m c' o : separate m = None -> ssr_step e c m = Some (c', o) -> c' = c.
Proof.
  destruct m; try discriminate; intros _ E; cbn [ssr_step] in E.
  - destruct (combined_to_sbp e h l); [injection E; auto|discriminate].
  - destruct (code_to_sbp e h l); [injection E; auto|discriminate].
  - destruct (phase_to_sbp e h l); [injection E; auto|discriminate].
Qed.
Definition cache_ok (c : cache) (ps : list (list Z)) : Prop := forall k, entry_ok (c k) (received k ps).
Lemma payload_ok e c p ps c' o : cache_ok c ps -> ssr_payload e c p = Some (c', o) -> cache_ok c' (ps ++ [p]).
Proof.
  intros Hc E k. unfold ssr_payload in E. rewrite received_app. cbn [received app]. destruct (classify p) as [m|] eqn:C; [|injection E as <- <-; apply Hc].
  unfold separate_of. destruct (separate m) as [h|] eqn:S.
  - destruct (step_separate e c m h (received (h_cons h) ps) c' o S (Hc _) (received_cons_of _ _) E) as (A & B & _).
    destruct (cons_eqb_spec (h_cons h) k) as [<-|N]; [exact A|]. cbn [app]. rewrite B by congruence. apply Hc.
  - apply step_other in E; [|exact S]. subst c'. apply Hc.
Qed.
Lemma run_at l : forall c ps c' os, cache_ok c ps -> ssr_run c l = Some (c', os) ->
  forall pre e p post, l = pre ++ (e, p) :: post ->
  exists c1 c2 o, cache_ok c1 (ps ++ map snd pre) /\ ssr_payload e c1 p = Some (c2, o) /\ nth (length pre) os [] = o /\ length os = length l.
Proof.
  induction l as [|[e0 p0] l IH]; intros c ps c' os Hc E pre e p post Hl; [destruct pre; discriminate|].
  cbn [ssr_run] in E. destruct (ssr_payload e0 c p0) as [[c1 o1]|] eqn:E1; [|discriminate].
  destruct (ssr_run c1 l) as [[c2 r]|] eqn:E2; [|discriminate]. injection E as <- <-.
  destruct pre as [|x pre].
  - cbn in Hl. injection Hl as -> -> ->. exists c, c1, o1. cbn [map]. rewrite app_nil_r. repeat split; auto. cbn [length]. f_equal.
    clear - E2. revert c1 c2 r E2. induction post as [|[e p] post IH]; intros c1 c2 r E; cbn in E; [injection E as <- <-; reflexivity|].
    destruct (ssr_payload e c1 p) as [[a b]|]; [|discriminate]. destruct (ssr_run a post) as [[x y]|] eqn:Y; [|discriminate]. injection E as <- <-.
    cbn. f_equal. eapply IH. exact Y.
  - cbn in Hl. injection Hl as <- ->. destruct (IH c1 (ps ++ [p0]) c2 r (payload_ok _ _ _ _ _ _ Hc E1) E2 pre e p post eq_refl) as (a & b & o & A & B & C & D).
    exists a, b, o. cbn [map snd]. rewrite <- app_assoc in A. cbn [app] in A. split; [exact A|]. split; [exact B|]. split; [exact C|]. cbn [length]. lia.
Qed.
Lemma empty_ok : cache_ok empty_cache [].
Proof. intros k. cbn. auto. Qed.

(** ** reading the history back *)
Lemma received_in c ps m : In m (received c ps) -> exists p, In p ps /\ classify p = Some m.
Proof.
  induction ps as [|p ps IH]; cbn [received]; [contradiction|]. rewrite in_app_iff. intros [X|X].
  - destruct (IH X) as (q & A & B). exists q. split; [right; exact A|exact B].
  - destruct (classify p) as [m'|] eqn:C; [|contradiction]. destruct (separate_of c m'); [|contradiction]. destruct X as [<-|[]].
    exists p. split; [left; reflexivity|exact C].
Qed.
Lemma received_newest c ps : forall q r, received c ps = q :: r ->
  exists a p b, ps = a ++ p :: b /\ classify p = Some q /\ received c b = [] /\ received c a = r.
Proof.
  induction ps as [|p ps IH]; cbn [received]; intros q r E; [discriminate|].
  destruct (received c ps) as [|q' r'] eqn:R.
  - cbn [app] in E. destruct (classify p) as [m|] eqn:C; [|discriminate]. destruct (separate_of c m); [|discriminate]. injection E as -> <-.
    exists [], p, ps. auto.
  - cbn [app] in E. injection E as -> E. destruct (IH _ _ eq_refl) as (a & p' & b & A & B & D & F).
    exists (p :: a), p', b. rewrite A. cbn [app received]. rewrite F. auto.
Qed.
Lemma per_sat_in {A} e h (so : A -> option Z) em x : forall l r, per_sat e h so em l = Some r -> In x r ->
  exists a s wt, In a l /\ so a = Some s /\ ssr_time e h = Some wt /\ time_sec_valid wt = true /\ In x (em (ident wt h s) a).
Proof.
  induction l as [|a l IH]; intros r E X; cbn [per_sat] in E; [injection E as <-; contradiction|].
  destruct (so a) as [s|] eqn:S.
  - unfold ssr_ident in E. destruct (ssr_time e h) as [wt|] eqn:T; [|discriminate]. destruct (time_sec_valid wt) eqn:V; [|injection E as <-; contradiction].
    destruct (per_sat e h so em l) as [r'|] eqn:E'; [|discriminate]. injection E as <-. apply in_app_iff in X. destruct X as [X|X].
    + exists a, s, wt. repeat split; auto. left; reflexivity.
    + destruct (IH _ eq_refl X) as (a' & s' & wt' & H1 & H2). exists a', s', wt'. split; [right; exact H1|exact H2].
  - destruct (IH _ E X) as (a' & s' & wt' & H1 & H2). exists a', s', wt'. split; [right; exact H1|exact H2].
Qed.
Lemma separate_in e ho os ks r x : separate_to_sbp e ho os ks = Some r -> In x r ->
  exists o k t, In o os /\ In k ks /\ o_sat o = k_sat k /\ ssr_time e ho = Some t /\ time_sec_valid t = true /\
    x = SOrbitClock (mkid (fst t) (snd t) (l1_code (h_cons ho)) (o_sat o) (h_interval ho) (h_iod ho)) (o_iode o)
          (o_radial o, o_along o, o_cross o, (o_dradial o, o_dalong o, o_dcross o)) (k_c0 k, k_c1 k, k_c2 k).
Proof.
  intros E X. destruct (per_sat_in _ _ _ _ _ _ _ E X) as (k & s & t & A & B & C & D & F). unfold find_orbit in *.
  destruct (find _ os) as [o|] eqn:G; [|contradiction]. apply find_some in G. destruct G as [G1 G2]. apply Z.eqb_eq in G2.
  exists o, k, t. destruct F as [F|[]]. injection B as <-. repeat split; auto.
  - unfold take in A. clear - A. revert A. generalize (Z.to_nat (Z.min (len ks) (len os))). intros n A.
    rewrite <- (firstn_skipn n ks). apply in_or_app. left. exact A.
Qed.

(** ** what an accepted payload can contain *)
Definition hdr_of (m : ssr_msg) : hdr := match m with MOrbit h _ | MClock h _ | MBoth h _ | MCode h _ | MPhase h _ => h end.
Definition nsats_of (m : ssr_msg) : Z := match m with MOrbit _ l => len l | MClock _ l => len l | MBoth _ l => len l | MCode _ l => len l | MPhase _ l => len l end.
Lemma run_dec_inv {A} (d : dec A) p a : run_dec d p = Ok a -> exists r, d (bits_of_bytes p) = DOk a r.
Proof. unfold run_dec. destruct (d _) eqn:E; try discriminate. intros [= <-]. eauto. Qed.
Lemma classify_inv p m : classify p = Some m ->
  0 <= h_epoch (hdr_of m) < 2 ^ 20 /\ nsats_of m = h_nsats (hdr_of m) /\ 0 <= nsats_of m < 64 /\ h_cons (hdr_of m) <> cINVALID.
Proof.
  unfold classify. cbv zeta. intros E.
  repeat match type of E with (if ?b then _ else _) = _ => destruct b end; try discriminate.
  all: match type of E with context [run_dec ?d ?qq] => destruct (run_dec d qq) as [[h l]| | |] eqn:R; try discriminate end;
    apply run_dec_inv in R; destruct R as (r & R);
    unfold decode_orbit, decode_clock, decode_code_bias, decode_orbit_clock, decode_phase_bias in R;
    apply (list_msg_inv _ _ (fun h l => (h, l))) in R; destruct R as (h' & l' & X1 & X2 & X3 & X4 & X5 & X6 & X7);
    injection X1 as -> ->; injection E as <-; cbn [hdr_of nsats_of]; rewrite X2; auto.
Qed.
Lemma get_u_range n bs v r : 0 <= n -> get_u n bs = DOk v r -> 0 <= v < 2 ^ n.
Proof.
  intros Hn. unfold get_u. destruct (len bs <? n) eqn:L; [discriminate|]. apply Z.ltb_ge in L. intros X.
  assert (v = val_be (take n bs)) as -> by congruence. pose proof (val_be_range (take n bs)) as V. rewrite len_take in V.
  replace (Z.min (Z.max 0 n) (len bs)) with n in V by lia. exact V.
Qed.
Lemma get_list_Forall {A} (d : dec A) (P : A -> Prop) n : (forall bs a r, d bs = DOk a r -> P a) ->
  forall bs l r, get_list d n bs = DOk l r -> Forall P l.
Proof.
  intros Hd. induction n as [|n IH]; intros bs l r E; cbn [get_list] in E; [unfold ret in E; assert (l = []) as -> by congruence; constructor|].
  destruct (dbind_ok _ _ _ _ _ E) as (a & r1 & E0 & E1). destruct (dbind_ok _ _ _ _ _ E1) as (l' & r2 & E2 & E3). unfold ret in E3.
  assert (l = a :: l') as -> by congruence. constructor; [eapply Hd, E0|eapply IH, E2].
Qed.
Lemma code_counts p h l : classify p = Some (MCode h l) -> Forall (fun s => len (cb_biases s) <= 31) l.
Proof.
  unfold classify. cbv zeta. intros E. repeat match type of E with (if ?b then _ else _) = _ => destruct b end; try discriminate.
  all: match type of E with context [run_dec ?d ?qq] => destruct (run_dec d qq) as [[h0 l0]| | |] eqn:R; try discriminate end.
  injection E as -> ->. apply run_dec_inv in R. destruct R as (r & R). unfold decode_code_bias in R.
  destruct (dbind_ok _ _ _ _ _ R) as (h' & r1 & _ & R1). destruct (negb _); [discriminate|]. destruct (dbind_ok _ _ _ _ _ R1) as (l' & r2 & R2 & R3).
  unfold ret in R3. assert (l = l') as -> by congruence. revert R2. apply get_list_Forall. intros bs s r' S.
  destruct (dbind_ok _ _ _ _ _ S) as (x & ? & _ & S1). destruct (dbind_ok _ _ _ _ _ S1) as (n & ? & G & S2). destruct (dbind_ok _ _ _ _ _ S2) as (b & ? & L & S3).
  apply get_u_range in G; [|lia]. apply get_list_len in L. unfold ret in S3. assert (s = mkcsat x b) as -> by congruence. cbn [cb_biases]. unfold len. change (2 ^ 5) with 32 in G. lia.
Qed.
Lemma phase_counts p h l : classify p = Some (MPhase h l) -> Forall (fun s => len (pb_biases s) <= 31) l.
Proof.
  unfold classify. cbv zeta. intros E. repeat match type of E with (if ?b then _ else _) = _ => destruct b end; try discriminate.
  all: match type of E with context [run_dec ?d ?qq] => destruct (run_dec d qq) as [[h0 l0]| | |] eqn:R; try discriminate end.
  injection E as -> ->. apply run_dec_inv in R. destruct R as (r & R). unfold decode_phase_bias in R.
  destruct (dbind_ok _ _ _ _ _ R) as (h' & r1 & _ & R1). destruct (negb _); [discriminate|]. destruct (dbind_ok _ _ _ _ _ R1) as (l' & r2 & R2 & R3).
  unfold ret in R3. assert (l = l') as -> by congruence. revert R2. apply get_list_Forall. intros bs s r' S.
  destruct (dbind_ok _ _ _ _ _ S) as (x & ? & _ & S1). destruct (dbind_ok _ _ _ _ _ S1) as (n & ? & G & S2). destruct (dbind_ok _ _ _ _ _ S2) as (y & ? & _ & S3).
  destruct (dbind_ok _ _ _ _ _ S3) as (rt & ? & _ & S4). destruct (dbind_ok _ _ _ _ _ S4) as (b & ? & L & S5).
  apply get_u_range in G; [|lia]. apply get_list_len in L. unfold ret in S5. assert (s = mkpsat x y rt b) as -> by congruence. cbn [pb_biases]. unfold len. change (2 ^ 5) with 32 in G. lia.
Qed.

(** ** no abort *)
Definition some_env (e : env) : Prop := exists leap, good_env e leap.
Lemma time_some e h : some_env e -> 0 <= h_epoch h < 2 ^ 20 -> exists wt, ssr_time e h = Some wt.
Proof. intros (leap & He) Hh. destruct (ssr_time_good e leap h He Hh) as (wt & E & _). eauto. Qed.
Lemma per_sat_some {A} e h (so : A -> option Z) em l : some_env e -> 0 <= h_epoch h < 2 ^ 20 -> exists r, per_sat e h so em l = Some r.
Proof. intros He Hh. destruct (time_some e h He Hh) as (wt & E). rewrite (per_sat_ok _ _ _ _ _ _ E). eauto. Qed.
Lemma payload_some e c ps p : cache_ok c ps -> some_env e -> exists c' o, ssr_payload e c p = Some (c', o).
Proof.
  intros Hc He. unfold ssr_payload. destruct (classify p) as [m|] eqn:C; [|eauto]. destruct (classify_inv _ _ C) as (Hh & _).
  destruct m as [h os|h ks|h l|h l|h l]; cbn [hdr_of ssr_step] in *.
  - unfold on_orbit. pose proof (Hc (h_cons h)) as E. unfold entry_ok in E.
    destruct (received (h_cons h) ps) as [|q r] eqn:R; [destruct E as [-> ->]; cbn; eauto|].
    destruct (paired (q :: r)); [destruct E as [-> ->]; cbn; eauto|].
    destruct q as [h' l'|h' l'| | |]; try contradiction; rewrite E; cbn [has_clock has_orbit andb negb c_data]; [eauto|].
    destruct (same_epoch h' h); [|eauto]. unfold separate_to_sbp.
    match goal with |- context [per_sat e h ?so ?em ?l] => destruct (per_sat_some e h so em l He Hh) as (x & ->) end. eauto.
  - unfold on_clock. pose proof (Hc (h_cons h)) as E. unfold entry_ok in E.
    destruct (received (h_cons h) ps) as [|q r] eqn:R; [destruct E as [-> ->]; cbn; eauto|].
    destruct (paired (q :: r)); [destruct E as [-> ->]; cbn; eauto|].
    destruct q as [h' l'|h' l'| | |]; try contradiction; rewrite E; cbn [has_clock has_orbit andb negb c_data]; [|eauto].
    destruct (same_epoch h' h); [|eauto]. unfold separate_to_sbp.
    assert (In (MOrbit h' l') (received (h_cons h) ps)) as I by (rewrite R; left; reflexivity). apply received_in in I. destruct I as (p' & _ & C').
    destruct (classify_inv _ _ C') as (Hh' & _). cbn [hdr_of] in Hh'.
    match goal with |- context [per_sat e h' ?so ?em ?l] => destruct (per_sat_some e h' so em l He Hh') as (x & ->) end. eauto.
  - unfold combined_to_sbp. match goal with |- context [per_sat e h ?so ?em ?l] => destruct (per_sat_some e h so em l He Hh) as (x & ->) end. eauto.
  - unfold code_to_sbp. match goal with |- context [per_sat e h ?so ?em ?l] => destruct (per_sat_some e h so em l He Hh) as (x & ->) end. eauto.
  - unfold phase_to_sbp. match goal with |- context [per_sat e h ?so ?em ?l] => destruct (per_sat_some e h so em l He Hh) as (x & ->) end. eauto.
Qed.
Lemma run_some l : forall c ps, cache_ok c ps -> Forall (fun ep => some_env (fst ep)) l -> exists c' os, ssr_run c l = Some (c', os).
Proof.
  induction l as [|[e p] l IH]; intros c ps Hc H; cbn [ssr_run]; [eauto|]. inversion H as [|? ? H1 H2]; subst.
  destruct (payload_some e c ps p Hc H1) as (c1 & o & E). rewrite E. destruct (IH c1 (ps ++ [p]) (payload_ok _ _ _ _ _ _ Hc E) H2) as (c2 & os & ->). eauto.
Qed.

(** the first message of a split holds the first 30 biases *)
Lemma phase_loop_split (mk : list pbias -> ssr_out) l : forall acc count, len acc < 30 -> 0 <= count -> 30 < len acc + len l ->
  exists count', 0 < count' /\ phase_loop mk acc count l = mk (acc ++ take (30 - len acc) l) :: phase_loop mk [] count' (drop (30 - len acc) l).
Proof.
  induction l as [|b l IH]; intros acc count Ha Hc Hl; [unfold len in *; cbn in *; lia|]. cbn [phase_loop]. rewrite len_cons in Hl.
  unfold PHASE_MAX. rewrite len_app. change (len [b]) with 1. destruct (Z.leb_spec 30 (len acc + 1)) as [L|L].
  - exists (count + 1). split; [lia|]. replace (30 - len acc) with 1 by lia. reflexivity.
  - destruct (IH (acc ++ [b]) (count + 1)) as (c' & H1 & H2); [rewrite len_app; change (len [b]) with 1; lia|lia|rewrite len_app; change (len [b]) with 1; lia|].
    exists c'. split; [exact H1|]. rewrite H2. rewrite len_app. change (len [b]) with 1.
    replace (30 - len acc) with (1 + (30 - (len acc + 1))) by lia. rewrite <- app_assoc.
    replace (take (1 + (30 - (len acc + 1))) (b :: l)) with ([b] ++ take (30 - (len acc + 1)) l)
      by (unfold take; replace (Z.to_nat (1 + (30 - (len acc + 1)))) with (S (Z.to_nat (30 - (len acc + 1)))) by lia; reflexivity).
    replace (drop (1 + (30 - (len acc + 1))) (b :: l)) with (drop (30 - (len acc + 1)) l)
      by (unfold drop; replace (Z.to_nat (1 + (30 - (len acc + 1)))) with (S (Z.to_nat (30 - (len acc + 1)))) by lia; reflexivity).
    reflexivity.
Qed.
Lemma phase_loop_rest (mk : list pbias -> ssr_out) l : forall acc count, 0 < count -> 0 < len acc + len l <= 30 -> len acc < 30 -> phase_loop mk acc count l = [mk (acc ++ l)].
Proof.
  induction l as [|b l IH]; intros acc count Hc Hl Ha; cbn [phase_loop].
  - rewrite app_nil_r. change (len (@nil pbias)) with 0 in Hl. destruct (Z.eqb_spec count 0); [lia|]. destruct (Z.ltb_spec 0 (len acc)); [reflexivity|lia].
  - rewrite len_cons in Hl. unfold PHASE_MAX. rewrite len_app. change (len [b]) with 1. destruct (Z.leb_spec 30 (len acc + 1)) as [L|L].
    + assert (l = []) as -> by (destruct l; [reflexivity|rewrite len_cons in Hl; pose proof (len_nonneg l); lia]).
      cbn [phase_loop]. destruct (Z.eqb_spec (count + 1) 0); [lia|]. reflexivity.
    + rewrite IH; [rewrite <- app_assoc; reflexivity|lia| |]; rewrite len_app; change (len [b]) with 1; pose proof (len_nonneg l); pose proof (len_nonneg acc); lia.
Qed.
Lemma phase_loop_two (mk : list pbias -> ssr_out) l : len l <= 31 ->
  phase_loop mk [] 0 l = (if len l <=? 30 then [mk l] else [mk (take 30 l); mk (drop 30 l)]).
Proof.
  intros H. destruct (Z.leb_spec (len l) 30) as [L|L].
  - destruct (phase_loop_full mk l) as (ps & A & _ & _ & D & _). rewrite A, (D L). reflexivity.
  - destruct (phase_loop_split mk l [] 0) as (c' & H1 & H2); [cbn; lia|lia|change (len (@nil pbias)) with 0; lia|]. rewrite H2. change (len (@nil pbias)) with 0.
    change (30 - 0) with 30. cbn [app]. f_equal. apply phase_loop_rest; [exact H1| |cbn; lia]. change (len (@nil pbias)) with 0. rewrite len_drop. lia.
Qed.
