From Verif Require Import Base Crc RtcmFraming_model RtcmFraming_spec.

(** ** crc range and bit facts *)
Lemma land_1023 x : Z.land x 1023 = x mod 1024.
Proof. change 1023 with (Z.ones 10). rewrite Z.land_ones by lia. reflexivity. Qed.

Lemma extract_msg_len_eq l : byte (znth 0 2 l) ->
  extract_msg_len l = (256 * znth 0 1 l + znth 0 2 l) mod 1024.
Proof.
  intros H. unfold extract_msg_len, RTCM3_MAX_MSG_LEN. rewrite land_1023.
  rewrite lor_shiftl_add by (unfold byte in H; lia). change (2^8) with 256. f_equal. lia.
Qed.

Lemma extract_range l : 0 <= extract_msg_len l < 1024.
Proof. unfold extract_msg_len, RTCM3_MAX_MSG_LEN. rewrite land_1023. apply Z.mod_pos_bound. lia. Qed.

(** ** position-free description of the scan *)
Definition cand (l : list Z) : bool := (znth 0 0 l =? 0xD3) && negb (extract_msg_len l =? 0).
Definition crcok (l : list Z) : bool := verify_crc l (len l).

Inductive Scan : list Z -> list (list Z) -> list Z -> Prop :=
| S_short l : len l <= 6 -> Scan l [] l
| S_skip x l fs r : 6 < len (x :: l) -> cand (x :: l) = false -> Scan l fs r -> Scan (x :: l) fs r
| S_wait l : 6 < len l -> cand l = true -> len l < 6 + extract_msg_len l -> Scan l [] l
| S_bad x l fs r : 6 < len (x :: l) -> cand (x :: l) = true -> 6 + extract_msg_len (x :: l) <= len (x :: l) ->
    crcok (x :: l) = false -> Scan l fs r -> Scan (x :: l) fs r
| S_good l fs r : 6 < len l -> cand l = true -> 6 + extract_msg_len l <= len l -> crcok l = true ->
    Scan (drop (extract_msg_len l + 6) l) fs r -> Scan l (take (extract_msg_len l + 6) l :: fs) r.

Lemma Scan_det l fs r : Scan l fs r -> forall fs' r', Scan l fs' r' -> fs = fs' /\ r = r'.
Proof.
  induction 1 as [l H|x l fs r H1 H2 HS IH|l H1 H2 H3|x l fs r H1 H2 H3 H4 HS IH|l fs r H1 H2 H3 H4 HS IH];
    intros fs' r' H'; inversion H'; subst; clear H'; try (split; reflexivity); try lia; try congruence;
    try (apply IH; assumption).
  edestruct IH as [-> ->]; [eassumption|]. split; reflexivity.
Qed.

Lemma extract_app a b : 2 < len a -> extract_msg_len (a ++ b) = extract_msg_len a.
Proof. intros. unfold extract_msg_len. rewrite !znth_app_l by lia. reflexivity. Qed.
Lemma cand_app a b : 2 < len a -> cand (a ++ b) = cand a.
Proof. intros. unfold cand. rewrite extract_app by lia. rewrite !znth_app_l by lia. reflexivity. Qed.
Lemma verify_app a b n m : 6 + extract_msg_len a <= len a -> extract_msg_len a + 6 <= n -> extract_msg_len a + 6 <= m ->
  verify_crc (a ++ b) n = verify_crc a m.
Proof.
  intros. pose proof (extract_range a). unfold verify_crc. rewrite extract_app by lia.
  unfold RTCM3_MSG_OVERHEAD.
  destruct (Z.ltb_spec n (extract_msg_len a + 6)); [lia|].
  destruct (Z.ltb_spec m (extract_msg_len a + 6)); [lia|].
  rewrite !znth_app_l by lia. rewrite take_app_l by lia. reflexivity.
Qed.
Lemma crcok_app a b : 6 + extract_msg_len a <= len a -> crcok (a ++ b) = crcok a.
Proof.
  intros. unfold crcok. pose proof (len_nonneg b). apply verify_app; rewrite ?len_app; lia.
Qed.

Lemma Scan_app a fs1 r1 : Scan a fs1 r1 -> forall b fs2 r2, Scan (r1 ++ b) fs2 r2 ->
  Scan (a ++ b) (fs1 ++ fs2) r2.
Proof.
  induction 1 as [l H|x l fs r H1 H2 HS IH|l H1 H2 H3|x l fs r H1 H2 H3 H4 HS IH|l fs r H1 H2 H3 H4 HS IH];
    intros b fs2 r2 HB.
  - exact HB.
  - cbn [app]. apply S_skip; [rewrite <- ?app_comm_cons; pose proof (len_nonneg b)| |apply IH; assumption].
    + change (x :: l ++ b) with ((x :: l) ++ b). rewrite len_app. lia.
    + change (x :: l ++ b) with ((x :: l) ++ b). rewrite cand_app by lia. exact H2.
  - exact HB.
  - cbn [app]. pose proof (len_nonneg b). apply S_bad; change (x :: l ++ b) with ((x :: l) ++ b).
    + rewrite len_app. lia.
    + rewrite cand_app by lia. exact H2.
    + rewrite extract_app by lia. rewrite len_app. lia.
    + rewrite crcok_app by lia. exact H4.
    + apply IH; assumption.
  - pose proof (len_nonneg b). cbn [app].
    replace (take (extract_msg_len l + 6) l) with (take (extract_msg_len (l ++ b) + 6) (l ++ b))
      by (rewrite extract_app by lia; rewrite take_app_l by lia; reflexivity).
    apply S_good.
    + rewrite len_app. lia.
    + rewrite cand_app by lia. exact H2.
    + rewrite extract_app by lia. rewrite len_app. lia.
    + rewrite crcok_app by lia. exact H4.
    + rewrite extract_app by lia. rewrite drop_app_l by lia. apply IH. assumption.
Qed.

(** remaining bytes are a short suffix *)
Lemma Scan_rest l fs r : Scan l fs r -> len r <= 1028 /\ len r <= len l.
Proof.
  induction 1 as [l H|x l fs r H1 H2 HS IH|l H1 H2 H3|x l fs r H1 H2 H3 H4 HS IH|l fs r H1 H2 H3 H4 HS IH].
  - lia.
  - rewrite len_cons. lia.
  - pose proof (extract_range l). lia.
  - rewrite len_cons. lia.
  - rewrite len_drop in IH. lia.
Qed.

(** ** the C loop computes Scan *)
Lemma scan_loop_Scan fuel : forall buf index,
  len buf <= 4096 -> 0 <= index <= len buf -> (Z.of_nat fuel > len buf - index) ->
  exists fs fin, scan_loop fuel buf index = Some (fs, fin) /\ index <= fin <= len buf /\
    Scan (drop index buf) fs (drop fin buf).
Proof.
  induction fuel as [|fuel IH]; intros buf index Hb Hi Hf; [lia|].
  cbn [scan_loop]. unfold RTCM3_MSG_OVERHEAD, RTCM3_MAX_MSG_LEN, RTCM3_PREAMBLE, RTCM3_FIFO_SIZE in *.
  assert (Hl : len (drop index buf) = len buf - index) by (rewrite len_drop; lia).
  destruct (Z.ltb_spec (index + 6) (len buf)) as [Hav|Hav].
  2:{ exists [], index. split; [reflexivity|]. split; [lia|]. apply S_short. lia. }
  pose proof (drop_znth 0 index buf ltac:(lia)) as Hd.
  assert (Hc0 : znth 0 0 (drop index buf) = znth 0 index buf) by (rewrite znth_drop by lia; f_equal; lia).
  pose proof (extract_range (drop index buf)) as Hr.
  assert (Hnext : exists fs fin, scan_loop fuel buf (index + 1) = Some (fs, fin) /\
      index <= fin <= len buf /\ Scan (drop (index + 1) buf) fs (drop fin buf)).
  { destruct (IH buf (index + 1)) as (fs & fin & E & H1 & H2); [lia..|].
    exists fs, fin. repeat split; auto; lia. }
  destruct (211 =? znth 0 index buf) eqn:E1; cbn [negb].
  2:{ destruct Hnext as (fs & fin & E & H1 & H2). exists fs, fin. split; [exact E|]. split; [exact H1|].
      rewrite Hd. apply S_skip; [rewrite <- Hd; lia| |exact H2]. rewrite <- Hd. unfold cand. rewrite Hc0, Z.eqb_sym, E1. reflexivity. }
  destruct (extract_msg_len (drop index buf) =? 0) eqn:E2; cbn [orb].
  { destruct Hnext as (fs & fin & E & H1 & H2). exists fs, fin. split; [exact E|]. split; [exact H1|].
    rewrite Hd. apply S_skip; [rewrite <- Hd; lia| |exact H2]. rewrite <- Hd. unfold cand. rewrite E2. apply andb_false_r. }
  destruct (Z.ltb_spec 1023 (extract_msg_len (drop index buf))); [lia|].
  assert (Hc : cand (drop index buf) = true).
  { unfold cand. rewrite Hc0, Z.eqb_sym, E1, E2. reflexivity. }
  destruct (Z.ltb_spec (len buf) (index + 6 + extract_msg_len (drop index buf))) as [Hw|Hw].
  { exists [], index. split; [reflexivity|]. split; [lia|]. apply S_wait; [lia|exact Hc|lia]. }
  assert (Hv : verify_crc (drop index buf) (4096 - index) = crcok (drop index buf)).
  { unfold crcok. rewrite <- (app_nil_r (drop index buf)) at 1. apply verify_app; lia. }
  rewrite Hv. destruct (crcok (drop index buf)) eqn:E3; cbn [negb].
  2:{ destruct Hnext as (fs & fin & E & H1 & H2). exists fs, fin. split; [exact E|]. split; [exact H1|].
      rewrite Hd. apply S_bad; rewrite <- ?Hd; [lia|exact Hc|lia|exact E3|exact H2]. }
  destruct (IH buf (index + (extract_msg_len (drop index buf) + 6))) as (fs & fin & E & H1 & H2); [lia..|].
  rewrite E. eexists _, fin. split; [reflexivity|]. split; [lia|].
  apply S_good; [lia|exact Hc|lia|exact E3|]. rewrite drop_drop by lia. exact H2.
Qed.

Lemma process_Scan fifo c : len fifo <= 1028 -> 1 <= len c <= 3067 ->
  exists r fs, process fifo c = Some (r, fs) /\ Scan (fifo ++ c) fs r.
Proof.
  intros Hf Hc. unfold process, RTCM3_FIFO_SIZE.
  destruct (Z.ltb_spec (len c) 1); [lia|].
  destruct (Z.eqb_spec (Z.min (len c) (4096 - len fifo)) (len c)) as [_|]; [|lia].
  destruct (scan_loop_Scan (S (length (fifo ++ c))) (fifo ++ c) 0) as (fs & fin & E & H1 & H2).
  - rewrite len_app. lia.
  - pose proof (len_nonneg (fifo ++ c)). lia.
  - unfold len. lia.
  - rewrite E. exists (drop fin (fifo ++ c)), fs.
    destruct (Z.leb_spec fin (len (fifo ++ c))); [|lia]. split; [reflexivity|exact H2].
Qed.

Lemma run_from_Scan chunks : forall fifo, len fifo <= 1028 -> Scan fifo [] fifo -> Forall good_read chunks ->
  exists r fs, run_from fifo chunks = Some (r, fs) /\ Scan (fifo ++ concat chunks) fs r /\ len r <= 1028.
Proof.
  induction chunks as [|c cs IH]; intros fifo Hf HS Hg.
  - exists fifo, []. cbn. rewrite app_nil_r. auto.
  - inversion Hg as [|? ? Hc Hcs]; subst. destruct Hc as [Hc _].
    destruct (process_Scan fifo c Hf Hc) as (r & fs & E & S1).
    assert (Hr : len r <= 1028) by apply (Scan_rest _ _ _ S1).
    assert (Srr : Scan r [] r).
    { clear -S1. induction S1; auto using S_short, S_wait. }
    destruct (IH r Hr Srr Hcs) as (r' & fs' & E' & S2 & Hr').
    cbn [run_from]. rewrite E, E'. exists r', (fs ++ fs'). split; [reflexivity|]. split; [|exact Hr'].
    cbn [concat]. rewrite app_assoc. eapply Scan_app; eassumption.
Qed.

Lemma run_Scan chunks : Forall good_read chunks ->
  exists r fs, run chunks = Some (r, fs) /\ Scan (concat chunks) fs r /\ len r <= 1028.
Proof.
  intros H. apply (run_from_Scan chunks []); [cbn; lia|apply S_short; cbn; lia|exact H].
Qed.

Lemma chunking_invariance chunks1 chunks2 :
  Forall good_read chunks1 -> Forall good_read chunks2 -> concat chunks1 = concat chunks2 ->
  run chunks1 = run chunks2.
Proof.
  intros H1 H2 E. destruct (run_Scan _ H1) as (r1 & f1 & -> & S1 & _).
  destruct (run_Scan _ H2) as (r2 & f2 & -> & S2 & _). rewrite E in S1.
  destruct (Scan_det _ _ _ S1 _ _ S2) as [-> ->]. reflexivity.
Qed.

Lemma no_loss chunks : Forall good_read chunks ->
  forall pre c post, chunks = pre ++ c :: post ->
  exists r fs, run pre = Some (r, fs) /\ len r <= 1028 /\ len r + len c <= RTCM3_FIFO_SIZE.
Proof.
  intros Hg pre c post ->. apply Forall_app in Hg. destruct Hg as [Hp Hc].
  inversion Hc as [|? ? [Hc1 _] _]; subst.
  destruct (run_Scan _ Hp) as (r & fs & E & _ & Hr). exists r, fs. unfold RTCM3_FIFO_SIZE.
  repeat split; auto; lia.
Qed.

(** ** frames delivered are valid, complete, ordered *)
Lemma bytes_Scan_frame l : bytes l -> 6 < len l -> cand l = true -> 6 + extract_msg_len l <= len l ->
  crcok l = true -> valid_frame (take (extract_msg_len l + 6) l).
Proof.
  intros Hb H6 Hc Hl Hk. pose proof (extract_range l) as Hr.
  unfold cand in Hc. apply andb_true_iff in Hc. destruct Hc as [Hc0 Hc1].
  apply Z.eqb_eq in Hc0. apply negb_true_iff, Z.eqb_neq in Hc1.
  destruct l as [|x [|b1 [|b2 l]]]; try (rewrite ?len_cons, ?len_nil in H6; lia).
  rewrite znth_0 in Hc0. subst x.
  set (L := 0xD3 :: b1 :: b2 :: l) in *.
  set (n := extract_msg_len L) in *.
  assert (HL : len L = 3 + len l) by (unfold L; rewrite !len_cons; lia).
  exists b1, b2, (take n l), (znth 0 n l), (znth 0 (n+1) l), (znth 0 (n+2) l).
  assert (Htl : take (n + 6) L = 0xD3 :: b1 :: b2 :: take n l ++ [znth 0 n l; znth 0 (n+1) l; znth 0 (n+2) l]).
  { unfold L. rewrite !take_cons by lia. do 3 f_equal.
    replace (n + 6 - 1 - 1 - 1) with (n + 3) by lia. rewrite take_add by lia. f_equal.
    rewrite (drop_znth 0 n l) by lia. rewrite take_cons by lia. f_equal.
    rewrite (drop_znth 0 (n+1) l) by lia. rewrite take_cons by lia. f_equal.
    replace (n + 1 + 1) with (n + 2) by lia.
    rewrite (drop_znth 0 (n+2) l) by lia. rewrite take_cons by lia. reflexivity. }
  split; [exact Htl|].
  assert (Hbl : bytes l). { unfold L in Hb. inversion Hb as [|? ? ? Hb1]; subst. inversion Hb1 as [|? ? ? Hb2]; subst. inversion Hb2; assumption. }
  assert (Hb2 : byte b2). { unfold L in Hb. inversion Hb as [|? ? ? Hb1]; subst. inversion Hb1 as [|? ? ? Hb2]; subst. inversion Hb2; assumption. }
  split; [apply Forall_take; exact Hb|].
  assert (Hn : len (take n l) = n) by (rewrite len_take; lia).
  split. { rewrite Hn. unfold n. rewrite extract_msg_len_eq; [reflexivity|exact Hb2]. }
  split; [lia|].
  unfold crcok, verify_crc in Hk. fold n in Hk. unfold RTCM3_MSG_OVERHEAD in Hk.
  destruct (Z.ltb_spec (len L) (n + 6)); [lia|]. apply Z.eqb_eq in Hk.
  assert (Ht3 : take (3 + n) L = 0xD3 :: b1 :: b2 :: take n l).
  { unfold L. rewrite !take_cons by lia. do 4 f_equal. lia. }
  rewrite Ht3 in Hk. rewrite <- Hk.
  assert (Hz : forall k, 3 <= k -> znth 0 k L = znth 0 (k - 3) l).
  { intros k Hk3. unfold L. rewrite !znth_cons by lia. f_equal. lia. }
  rewrite !Hz by lia. replace (n + 3 - 3) with n by lia. replace (n + 4 - 3) with (n+1) by lia.
  replace (n + 5 - 3) with (n + 2) by lia.
  assert (B1 : byte (znth 0 (n+1) l)) by (apply Forall_znth; [exact Hbl|lia]).
  assert (B2 : byte (znth 0 (n+2) l)) by (apply Forall_znth; [exact Hbl|lia]).
  unfold byte in B1, B2.
  replace (Z.shiftl (znth 0 n l) 16) with (Z.shiftl (Z.shiftl (znth 0 n l) 8) 8)
    by (rewrite Z.shiftl_shiftl by lia; reflexivity).
  assert (HE : Z.lor (Z.shiftl (Z.shiftl (znth 0 n l) 8) 8) (Z.shiftl (znth 0 (n + 1) l) 8)
     = Z.shiftl (Z.lor (Z.shiftl (znth 0 n l) 8) (znth 0 (n+1) l)) 8) by (rewrite Z.shiftl_lor; reflexivity).
  rewrite HE. rewrite lor_shiftl_add by lia. rewrite lor_shiftl_add by lia. lia.
Qed.

(** conversely, a valid frame at the head of a list is accepted at once *)
Lemma valid_frame_head f s : valid_frame f ->
  cand (f ++ s) = true /\ extract_msg_len (f ++ s) + 6 = len f /\ crcok (f ++ s) = true /\ 6 < len f.
Proof.
  intros (b1 & b2 & p & c2 & c1 & c0 & -> & Hb & Hn & Hp & Hcrc).
  set (L := 0xD3 :: b1 :: b2 :: p ++ [c2; c1; c0]) in *.
  assert (HL : len L = 6 + len p) by (unfold L; rewrite !len_cons, len_app, !len_cons, len_nil; lia).
  assert (Hb2 : byte b2). { unfold L in Hb. inversion Hb as [|? ? ? Hb1]; subst. inversion Hb1 as [|? ? ? Hb2']; subst. inversion Hb2'; assumption. }
  assert (Hbt : bytes (p ++ [c2;c1;c0])). { unfold L in Hb. inversion Hb as [|? ? ? Hb1]; subst. inversion Hb1 as [|? ? ? Hb2']; subst. inversion Hb2'; assumption. }
  apply Forall_app in Hbt. destruct Hbt as [_ Hbc]. inversion Hbc as [|? ? Bc2 Hbc']; subst. inversion Hbc' as [|? ? Bc1 Hbc'']; subst. inversion Hbc'' as [|? ? Bc0 _]; subst.
  assert (He : extract_msg_len L = len p).
  { rewrite extract_msg_len_eq by exact Hb2. unfold L. rewrite !znth_cons by lia. cbn [Z.sub]. rewrite Hn. reflexivity. }
  rewrite cand_app by lia. rewrite extract_app by lia. rewrite crcok_app by lia.
  repeat split; try lia.
  - unfold cand. rewrite He. unfold L. rewrite znth_0. cbn [Z.eqb Pos.eqb andb]. apply negb_true_iff, Z.eqb_neq. lia.
  - unfold crcok, verify_crc. rewrite He. unfold RTCM3_MSG_OVERHEAD.
    destruct (Z.ltb_spec (len L) (len p + 6)); [lia|]. apply Z.eqb_eq.
    assert (Ht3 : take (3 + len p) L = 0xD3 :: b1 :: b2 :: p).
    { unfold L. rewrite !take_cons by lia. do 3 f_equal. replace (3 + len p - 1 - 1 - 1) with (len p) by lia. apply take_app_exact. }
    rewrite Ht3, Hcrc.
    assert (Hz : forall k, 0 <= k -> znth 0 (len p + 3 + k) L = znth 0 k [c2;c1;c0]).
    { intros k Hk3. unfold L. pose proof (len_nonneg p). rewrite !znth_cons by lia. rewrite znth_app_r by lia. f_equal. lia. }
    replace (len p + 3) with (len p + 3 + 0) by lia. replace (len p + 4) with (len p + 3 + 1) by lia.
    replace (len p + 5) with (len p + 3 + 2) by lia. rewrite !Hz by lia.
    unfold znth. change (Z.to_nat 0) with 0%nat. change (Z.to_nat 1) with 1%nat. change (Z.to_nat 2) with 2%nat. cbn [nth].
    unfold byte in *.
    replace (Z.shiftl c2 16) with (Z.shiftl (Z.shiftl c2 8) 8) by (rewrite Z.shiftl_shiftl by lia; reflexivity).
    rewrite <- Z.shiftl_lor. rewrite lor_shiftl_add by lia. rewrite lor_shiftl_add by lia. lia.
Qed.

Lemma Scan_garbage g s fs r : ~ In 0xD3 g -> Scan s fs r ->
  exists r', Scan (g ++ s) fs r'.
Proof.
  induction g as [|x g IH]; intros Hg HS; [exists r; exact HS|].
  assert (Hx : x <> 0xD3) by (intros ->; apply Hg; left; reflexivity).
  assert (Hg' : ~ In 0xD3 g) by (intros HI; apply Hg; right; exact HI).
  destruct (IH Hg' HS) as (r' & HS').
  destruct (Z.le_gt_cases (len (x :: g ++ s)) 6) as [Hs|Hs].
  - exists (x :: g ++ s). cbn [app].
    assert (fs = []) as ->. { rewrite len_cons in Hs. revert HS'. generalize (g ++ s) Hs. clear. intros l Hs HS'.
      inversion HS'; subst; try reflexivity; lia. }
    apply S_short. lia.
  - exists r'. cbn [app]. apply S_skip; [lia| |exact HS'].
    unfold cand. rewrite znth_0. destruct (Z.eqb_spec x 0xD3); [congruence|reflexivity].
Qed.

Lemma garbage_separated_Scan fs s : garbage_separated fs s -> exists r, Scan s fs r.
Proof.
  induction 1 as [g Hg Hb|g f fs s Hg Hb Hf HS [r IH]].
  - destruct (Scan_garbage g [] [] [] Hg) as [r H]; [apply S_short; cbn; lia|].
    rewrite app_nil_r in H. eauto.
  - destruct (valid_frame_head f s Hf) as (H1 & H2 & H3 & H4). pose proof (len_nonneg s).
    eapply Scan_garbage; [exact Hg|].
    assert (HF : take (extract_msg_len (f ++ s) + 6) (f ++ s) = f) by (rewrite H2; apply take_app_exact).
    assert (HG : Scan (f ++ s) (take (extract_msg_len (f ++ s) + 6) (f ++ s) :: fs) r).
    { apply S_good; [rewrite len_app; lia|exact H1|rewrite len_app; lia|exact H3|].
      rewrite H2, drop_app_exact. exact IH. }
    rewrite HF in HG. exact HG.
Qed.

Lemma delivery chunks fs : Forall good_read chunks -> garbage_separated fs (concat chunks) ->
  exists r, run chunks = Some (r, fs).
Proof.
  intros Hg Hs. destruct (run_Scan _ Hg) as (r & fs' & E & S1 & _).
  destruct (garbage_separated_Scan _ _ Hs) as (r' & S2).
  destruct (Scan_det _ _ _ S1 _ _ S2) as [-> _]. eauto.
Qed.

(** positions *)
Definition shift (k : Z) (tr : list (Z * list Z)) := map (fun q => (fst q + k, snd q)) tr.
Lemma ordered_shift k p tr : ordered_from p tr -> ordered_from (p + k) (shift k tr).
Proof.
  revert p; induction tr as [|[q f] tr IH]; intros p H; [exact I|]. cbn [shift map ordered_from fst snd] in *.
  destruct H as [H1 H2]. split; [lia|]. replace (q + k + len f) with (q + len f + k) by lia. apply IH. exact H2.
Qed.
Lemma ordered_weaken p p' tr : p' <= p -> ordered_from p tr -> ordered_from p' tr.
Proof. destruct tr as [|[q f] tr]; cbn; intros; [exact I|]. intuition lia. Qed.
Lemma occurs_app g s p f : occurs_at s p f -> occurs_at (g ++ s) (p + len g) f.
Proof.
  intros (H1 & H2 & H3). pose proof (len_nonneg g). unfold occurs_at, sub. rewrite len_app. split; [lia|]. split; [lia|].
  rewrite drop_app_r by lia. replace (p + len g - len g) with p by lia. exact H3.
Qed.
Lemma occurs_app_inv g s p f : occurs_at (g ++ s) p f -> len g <= p -> occurs_at s (p - len g) f.
Proof.
  intros (H1 & H2 & H3) H. rewrite len_app in H2. unfold occurs_at, sub in *. split; [lia|]. split; [lia|].
  rewrite drop_app_r in H3 by lia. exact H3.
Qed.

Definition complete_upto (s : list Z) (c : Z) (tr : list (Z * list Z)) : Prop :=
  forall q f, occurs_at s q f -> valid_frame f -> q < c ->
    In (q, f) tr \/ exists p g, In (p, g) tr /\ p < q < p + len g.

Lemma occurs_head s f : occurs_at s 0 f -> exists t, s = f ++ t.
Proof.
  intros (H1 & H2 & H3). unfold sub in H3. rewrite drop_0 in H3.
  exists (drop (len f) s). rewrite <- H3 at 1. symmetry. apply take_drop.
Qed.

Lemma Scan_trace l fs r : Scan l fs r -> bytes l -> exists tr,
  map snd tr = fs /\ ordered_from 0 tr /\
  (forall p f, In (p, f) tr -> occurs_at l p f /\ valid_frame f) /\
  (exists g, l = g ++ r) /\
  complete_upto l (len l - len r) tr.
Proof.
  assert (Hskip : forall x l fs r, 6 < len (x :: l) -> (cand (x :: l) = false \/ crcok (x :: l) = false) ->
    Scan l fs r -> (exists tr,
  map snd tr = fs /\ ordered_from 0 tr /\
  (forall p f, In (p, f) tr -> occurs_at l p f /\ valid_frame f) /\
  (exists g, l = g ++ r) /\
  complete_upto l (len l - len r) tr) -> exists tr,
  map snd tr = fs /\ ordered_from 0 tr /\
  (forall p f, In (p, f) tr -> occurs_at (x :: l) p f /\ valid_frame f) /\
  (exists g, x :: l = g ++ r) /\
  complete_upto (x :: l) (len (x :: l) - len r) tr).
  { clear. intros x l fs r H6 Hno HS (tr & T1 & T2 & T3 & (g & T4) & T5).
    exists (shift 1 tr). split; [|split; [|split; [|split]]].
    - unfold shift. rewrite map_map. cbn. exact T1.
    - eapply ordered_weaken; [|apply ordered_shift; exact T2]. lia.
    - intros p f Hin. unfold shift in Hin. apply in_map_iff in Hin. destruct Hin as ([q f'] & E & Hin).
      cbn [fst snd] in E. injection E as <- <-. destruct (T3 _ _ Hin) as [Ho Hv]. split; [|exact Hv].
      apply (occurs_app [x]) in Ho. exact Ho.
    - exists (x :: g). cbn. now rewrite <- T4.
    - intros q f Ho Hv Hq. destruct (Z.eq_dec q 0) as [->|Hq0].
      + exfalso. destruct (occurs_head _ _ Ho) as [t Ht]. destruct (valid_frame_head f t Hv) as (V1 & _ & V3 & _).
        rewrite <- Ht in V1, V3. destruct Hno; congruence.
      + assert (Hq1 : 0 <= q) by apply Ho. rewrite len_cons in Hq.
        assert (Ho' : occurs_at l (q - 1) f) by (apply (occurs_app_inv [x] l q f Ho); cbn; lia).
        destruct (T5 _ _ Ho' Hv ltac:(lia)) as [HI|(p & g' & HI & Hp)].
        * left. unfold shift. apply in_map_iff. exists (q - 1, f). cbn. split; [f_equal; lia|exact HI].
        * right. exists (p + 1), g'. split; [|lia]. unfold shift. apply in_map_iff. exists (p, g'). auto. }
  intros HS Hb.
  induction HS as [l H|x l fs r H1 H2 HS IH|l H1 H2 H3|x l fs r H1 H2 H3 H4 HS IH|l fs r H1 H2 H3 H4 HS IH].
  - exists []. split; [reflexivity|]. split; [exact I|]. split; [intros ? ? []|]. split; [exists []; reflexivity|].
    intros q f Ho _ Hq. destruct Ho as [Ho _]. lia.
  - apply Hskip with (fs := fs); auto. apply IH. inversion Hb; assumption.
  - exists []. split; [reflexivity|]. split; [exact I|]. split; [intros ? ? []|]. split; [exists []; reflexivity|].
    intros q f Ho _ Hq. destruct Ho as [Ho _]. lia.
  - apply Hskip with (fs := fs); auto. apply IH. inversion Hb; assumption.
  - set (n := extract_msg_len l + 6) in *. pose proof (extract_range l) as Hr.
    destruct IH as (tr & T1 & T2 & T3 & (g & T4) & T5); [apply Forall_drop; exact Hb|].
    assert (Hlt : len (take n l) = n) by (rewrite len_take; lia).
    assert (Hl : l = take n l ++ drop n l) by (symmetry; apply take_drop).
    exists ((0, take n l) :: shift n tr). split; [|split; [|split; [|split]]].
    + cbn [map snd]. f_equal. unfold shift. rewrite map_map. exact T1.
    + cbn [ordered_from]. split; [lia|]. rewrite Hlt. apply (ordered_shift n 0). exact T2.
    + intros p f [E|Hin].
      * injection E as <- <-. split; [|apply bytes_Scan_frame; assumption || lia].
        unfold occurs_at. rewrite Hlt. split; [lia|]. split; [lia|]. unfold sub. rewrite drop_0. reflexivity.
      * unfold shift in Hin. apply in_map_iff in Hin. destruct Hin as ([q f'] & E & Hin).
        cbn [fst snd] in E. injection E as <- <-. destruct (T3 _ _ Hin) as [Ho Hv]. split; [|exact Hv].
        apply (occurs_app (take n l)) in Ho. rewrite take_drop, Hlt in Ho. exact Ho.
    + exists (take n l ++ g). rewrite <- app_assoc, <- T4. symmetry. apply take_drop.
    + intros q f Ho Hv Hq. assert (Hq0 : 0 <= q) by apply Ho.
      destruct (Z.lt_ge_cases q n) as [Hqn|Hqn].
      * destruct (Z.eq_dec q 0) as [->|Hq1].
        -- left. left. f_equal. destruct (occurs_head _ _ Ho) as [t Ht]. destruct (valid_frame_head f t Hv) as (_ & V2 & _ & _).
           rewrite <- Ht in V2. fold n in V2. rewrite V2, Ht. apply take_app_exact.
        -- right. exists 0, (take n l). split; [left; reflexivity|]. lia.
      * rewrite Hl in Ho. apply occurs_app_inv in Ho; [|lia]. rewrite Hlt in Ho.
        rewrite len_drop in T5.
        destruct (T5 _ _ Ho Hv ltac:(lia)) as [HI|(p & g' & HI & Hp)].
        -- left. right. unfold shift. apply in_map_iff. exists (q - n, f). cbn. split; [f_equal; lia|exact HI].
        -- right. exists (p + n), g'. split; [|lia]. right. unfold shift. apply in_map_iff. exists (p, g'). auto.
Qed.

Lemma bytes_concat chunks : Forall good_read chunks -> bytes (concat chunks).
Proof.
  induction 1 as [|c cs [_ Hc] Hcs IH]; cbn [concat]; [constructor|]. apply Forall_app. split; assumption.
Qed.

Lemma soundness_completeness chunks : Forall good_read chunks ->
  exists r fs tr, run chunks = Some (r, fs) /\
    map snd tr = fs /\ ordered_from 0 tr /\
    (forall p f, In (p, f) tr -> occurs_at (concat chunks) p f /\ valid_frame f) /\
    (exists g, concat chunks = g ++ r) /\ len r <= 1028 /\
    (forall q f, occurs_at (concat chunks) q f -> valid_frame f -> q < len (concat chunks) - len r ->
      In (q, f) tr \/ exists p g, In (p, g) tr /\ p < q < p + len g).
Proof.
  intros Hg. destruct (run_Scan _ Hg) as (r & fs & E & S1 & Hr).
  destruct (Scan_trace _ _ _ S1 (bytes_concat _ Hg)) as (tr & T1 & T2 & T3 & T4 & T5).
  exists r, fs, tr. split; [exact E|]. split; [exact T1|]. split; [exact T2|]. split; [exact T3|].
  split; [exact T4|]. split; [exact Hr|exact T5].
Qed.
