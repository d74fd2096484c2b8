(** Lemmas about the NMEA text layer. *)
From Verif Require Import Base NmeaText_model.

Lemma write_ok (mem : list Z) p l : 0 <= p -> p + len l <= len mem -> write mem p l = Ok (take p mem ++ l ++ drop (p + len l) mem).
Proof. intros. unfold write. replace (0 <=? p) with true by lia. replace (p + len l <=? len mem) with true by lia. reflexivity. Qed.
Lemma write_len (mem l : list Z) p : 0 <= p -> p + len l <= len mem -> len (take p mem ++ l ++ drop (p + len l) mem) = len mem.
Proof. intros. pose proof (len_nonneg l). rewrite !len_app, len_take, len_drop. lia. Qed.

(** after at least one PRINTF the buffer holds the text, cut to max_len - 1 characters, and a NUL *)
Definition holds (max size : Z) (b : list Z * Z) (t : list Z) : Prop :=
  snd b = Z.min (len t) max /\ len (fst b) = size /\ exists rest, fst b = take (max - 1) t ++ 0 :: rest.

Lemma printf_first max size init s : 1 <= max -> max <= size -> len init = size ->
  exists b, sentence_printf max (init, 0) s = Ok b /\ holds max size b s.
Proof.
  intros M1 M2 L. unfold sentence_printf, snprintf. replace (max - 0 <=? 0) with false by lia. rewrite Z.sub_0_r.
  pose proof (len_nonneg s). assert (LT : len (take (max - 1) s ++ [0]) = Z.min (max - 1) (len s) + 1) by (rewrite len_app, len_take, len_cons, (@len_nil Z); lia).
  rewrite write_ok by lia. cbn [bind]. eexists. split; [reflexivity|]. split; [|split].
  - cbn [snd]. destruct (Z.leb_spec max (0 + len s)); lia.
  - cbn [fst]. rewrite write_len by lia. exact L.
  - cbn [fst]. rewrite take_le0 by lia. rewrite <- app_assoc. cbn [app]. eexists. reflexivity.
Qed.
Lemma printf_next max size b t s : 1 <= max -> max <= size -> holds max size b t ->
  exists b', sentence_printf max b s = Ok b' /\ holds max size b' (t ++ s).
Proof.
  intros M1 M2 (P & L & rest & E). destruct b as [mem p]. cbn [fst snd] in *. unfold sentence_printf, snprintf.
  pose proof (len_nonneg s). pose proof (len_nonneg t). destruct (Z.leb_spec (max - p) 0) as [F|F].
  - cbn [bind]. eexists. split; [reflexivity|]. unfold holds. cbn [fst snd]. split; [|split].
    + rewrite len_app. replace (max <=? p + len s) with true by lia. lia.
    + exact L.
    + exists rest. rewrite take_app_l by lia. exact E.
  - assert (LT : len (take (max - p - 1) s ++ [0]) = Z.min (max - p - 1) (len s) + 1) by (rewrite len_app, len_take, len_cons, (@len_nil Z); lia).
    rewrite write_ok by lia. cbn [bind]. eexists. split; [reflexivity|]. unfold holds. cbn [fst snd]. split; [|split].
    + rewrite len_app. destruct (Z.leb_spec max (p + len s)); lia.
    + rewrite (write_len mem) by lia. exact L.
    + assert (ET : take (max - 1) t = t) by (apply take_all; lia). rewrite ET in E.
      assert (EP : take p mem = t) by (rewrite E; apply take_app_eq; lia). rewrite EP.
      rewrite (take_app_r (max - 1) t s) by lia. replace (max - 1 - len t) with (max - p - 1) by lia. eexists. rewrite <- !app_assoc. cbn [app]. reflexivity.
Qed.
Lemma printfs_next max size parts : forall b t, 1 <= max -> max <= size -> holds max size b t ->
  exists b', printfs max b parts = Ok b' /\ holds max size b' (t ++ concat parts).
Proof.
  induction parts as [|s parts IH]; intros b t M1 M2 H; cbn [printfs concat].
  - exists b. rewrite app_nil_r. split; [reflexivity|exact H].
  - destruct (printf_next max size b t s M1 M2 H) as (b1 & -> & H1). cbn [bind]. destruct (IH b1 _ M1 M2 H1) as (b2 & -> & H2). exists b2. rewrite <- app_assoc in H2. split; [reflexivity|exact H2].
Qed.
Lemma printfs_all max size init parts : 1 <= max -> max <= size -> len init = size -> parts <> [] ->
  exists b, printfs max (init, 0) parts = Ok b /\ holds max size b (concat parts).
Proof.
  intros M1 M2 L N. destruct parts as [|s parts]; [contradiction|]. cbn [printfs concat].
  destruct (printf_first max size init s M1 M2 L) as (b & -> & H). cbn [bind]. apply printfs_next; assumption.
Qed.

Definition xor_of (l : list Z) : Z := fold_left Z.lxor l 0.
Definition plain (c : Z) : Prop := c <> 0 /\ c <> STAR.
Lemma loop_spec mem c : forall fuel pre x post sum, mem = pre ++ c ++ x :: post -> Forall plain c -> (x = 0 \/ x = STAR) -> len pre + len c + NMEA_SUFFIX_LEN < len mem ->
  (Datatypes.length c < fuel)%nat -> sum_loop fuel mem (len pre) sum = (len pre + len c, fold_left Z.lxor c sum).
Proof.
  induction c as [|a c IH]; intros fuel pre x post sum E F X L FU; destruct fuel as [|fuel]; try (cbn in FU; lia); cbn [sum_loop fold_left].
  - replace (znth 0 (len pre) mem) with x by (rewrite E; cbn [app]; rewrite znth_app_r by lia; rewrite Z.sub_diag; reflexivity).
    rewrite (@len_nil Z), Z.add_0_r. destruct X as [->| ->]; [rewrite andb_false_r|]; reflexivity.
  - inversion F as [|? ? [N0 N1] F']; subst. rewrite len_cons in *. pose proof (len_nonneg c).
    assert (G : znth 0 (len pre) (pre ++ (a :: c) ++ x :: post) = a) by (rewrite znth_app_r by lia; rewrite Z.sub_diag; reflexivity).
    rewrite G. replace (a =? STAR) with false by lia. replace (a =? 0) with false by lia. cbn [negb andb].
    replace (len pre + NMEA_SUFFIX_LEN <? len (pre ++ (a :: c) ++ x :: post)) with true by lia.
    replace (len pre + 1) with (len (pre ++ [a])) by (rewrite len_app, len_cons, (@len_nil Z); lia).
    rewrite (IH fuel (pre ++ [a]) x post).
    + rewrite len_app, len_cons, (@len_nil Z). f_equal. lia.
    + rewrite <- app_assoc. reflexivity.
    + exact F'.
    + exact X.
    + rewrite len_app, len_cons, (@len_nil Z). lia.
    + cbn in FU. lia.
Qed.
Lemma loop_bound mem fuel : forall p sum, 0 <= p -> p + NMEA_SUFFIX_LEN <= len mem -> let q := fst (sum_loop fuel mem p sum) in p <= q /\ q + NMEA_SUFFIX_LEN <= len mem.
Proof.
  induction fuel as [|fuel IH]; intros p sum P L; cbn [sum_loop fst]; [lia|].
  destruct (_ && _ && _) eqn:C; cbn [fst]; [|lia]. apply andb_prop in C. destruct C as [_ C]. apply Z.ltb_lt in C.
  destruct (IH (p + 1) (Z.lxor sum (znth 0 p mem))); lia.
Qed.
Lemma cstring_app l r : Forall (fun c => c <> 0) l -> cstring (l ++ 0 :: r) = l.
Proof. induction 1 as [|c l H F IH]; cbn [app cstring]; [reflexivity|]. replace (c =? 0) with false by lia. rewrite IH. reflexivity. Qed.

Lemma hex2_nonzero b : 0 <= b < 256 -> Forall (fun c => c <> 0) (hex2 b).
Proof.
  intros B. assert (0 <= b / 16 < 16) by (split; [apply Z.div_pos; lia|apply Z.div_lt_upper_bound; lia]). pose proof (Z.mod_pos_bound b 16 ltac:(lia)).
  unfold hex2, hexdigit. repeat constructor; destruct (Z.ltb_spec (b / 16) 10); destruct (Z.ltb_spec (b mod 16) 10); lia.
Qed.
Lemma lxor_byte a b : 0 <= a < 256 -> 0 <= b < 256 -> 0 <= Z.lxor a b < 256.
Proof.
  intros A B. assert (N : 0 <= Z.lxor a b) by (apply Z.lxor_nonneg; lia). split; [exact N|]. destruct (Z.eq_dec (Z.lxor a b) 0); [lia|].
  apply (Z.log2_lt_pow2 _ 8); [lia|]. eapply Z.le_lt_trans; [apply Z.log2_lxor; lia|].
  apply Z.max_lub_lt; (destruct (Z.eq_dec a 0); destruct (Z.eq_dec b 0); subst; try (cbn; lia)); apply (Z.log2_lt_pow2 _ 8); lia.
Qed.
Lemma xor_byte l : bytes l -> forall s, 0 <= s < 256 -> 0 <= fold_left Z.lxor l s < 256.
Proof. induction 1 as [|c l H F IH]; intros s S; cbn [fold_left]; [exact S|]. apply IH. apply lxor_byte; [exact S|exact H]. Qed.

(** the buffer is never overrun, whatever is printed *)
Lemma sentence_in_bounds max init parts : 1 <= max -> len init = max + NMEA_SUFFIX_LEN -> parts <> [] -> exists out, sentence max init parts = Ok out.
Proof.
  intros M L N. destruct (printfs_all max (max + NMEA_SUFFIX_LEN) init parts M) as ([mem p] & E & H).
  - unfold NMEA_SUFFIX_LEN. lia.
  - exact L.
  - exact N.
  - unfold sentence. rewrite E. cbn [bind]. destruct H as (_ & LM & _). cbn [fst] in LM. unfold append_checksum. cbv zeta.
    set (p0 := if _ : bool then 1 else 0). assert (B : 0 <= p0 /\ p0 + NMEA_SUFFIX_LEN <= len mem) by (unfold p0, NMEA_SUFFIX_LEN in *; destruct (_ =? _); lia).
    pose proof (loop_bound mem (Datatypes.length mem) p0 0 (proj1 B) (proj2 B)) as Q. destruct (sum_loop _ mem p0 0) as [q sum]. cbn [fst] in Q. unfold NMEA_SUFFIX_LEN in *.
    replace (0 <? len mem - q) with true by lia. unfold snprintf. replace (len mem - q <=? 0) with false by lia.
    set (l := take _ _ ++ [0]). assert (LL : q + len l <= len mem) by (unfold l; rewrite len_app, len_take; change (len ([STAR] ++ hex2 sum ++ [CR; LF])) with 5; change (len [0]) with 1; lia).
    rewrite write_ok by lia. cbn [bind]. eexists. reflexivity.
Qed.

(** a sentence of ordinary characters beginning with '$': the text, cut if necessary, the checksum, CR LF *)
Lemma sentence_text max init parts body : 2 <= max -> len init = max + NMEA_SUFFIX_LEN ->
  concat parts = DOLLAR :: body -> Forall (fun c => plain c /\ byte c) body ->
  sentence max init parts = Ok (DOLLAR :: take (max - 2) body ++ [STAR] ++ hex2 (xor_of (take (max - 2) body)) ++ [CR; LF]).
Proof.
  intros M L E F. assert (N : parts <> []) by (intros ->; discriminate E).
  destruct (printfs_all max (max + NMEA_SUFFIX_LEN) init parts) as ([mem p] & EP & H); [lia|unfold NMEA_SUFFIX_LEN; lia|exact L|exact N|].
  unfold sentence. rewrite EP. cbn [bind]. destruct H as (_ & LM & rest & EM). cbn [fst] in LM, EM. rewrite E in EM.
  assert (TK : take (max - 1) (DOLLAR :: body) = DOLLAR :: take (max - 2) body).
  { change (DOLLAR :: body) with ([DOLLAR] ++ body). rewrite take_app_r by (rewrite len_cons, (@len_nil Z); lia). rewrite len_cons, (@len_nil Z).
    replace (max - 1 - (1 + 0)) with (max - 2) by lia. reflexivity. }
  rewrite TK in EM. set (b := take (max - 2) body) in *.
  assert (LB : len b <= max - 2) by (unfold b; rewrite len_take; pose proof (len_nonneg body); lia).
  assert (FB : Forall (fun c => plain c /\ byte c) b).
  { unfold b. apply Forall_forall. intros c Hc. rewrite Forall_forall in F. apply F. unfold take in Hc. rewrite <- (firstn_skipn (Z.to_nat (max - 2)) body). apply in_or_app. left. exact Hc. }
  assert (FP : Forall plain b) by (eapply Forall_impl; [|exact FB]; intros c X; apply X).
  assert (BB : bytes b) by (eapply Forall_impl; [|exact FB]; intros c X; apply X).
  unfold append_checksum. cbv zeta. replace (znth 0 0 mem) with DOLLAR by (rewrite EM; reflexivity). rewrite Z.eqb_refl.
  pose proof (len_nonneg b).
  change (sum_loop (Datatypes.length mem) mem 1 0) with (sum_loop (Datatypes.length mem) mem (len [DOLLAR]) 0).
  rewrite (loop_spec mem b (Datatypes.length mem) [DOLLAR] 0 rest 0); [|rewrite EM; reflexivity|exact FP|left; reflexivity|rewrite len_cons, (@len_nil Z); unfold NMEA_SUFFIX_LEN in *; lia|].
  2:{ apply Nat2Z.inj_lt. change (Z.of_nat (Datatypes.length b)) with (len b). change (Z.of_nat (Datatypes.length mem)) with (len mem). unfold NMEA_SUFFIX_LEN in *. lia. }
  fold (xor_of b). rewrite len_cons, (@len_nil Z). unfold NMEA_SUFFIX_LEN in *. replace (0 <? len mem - (1 + 0 + len b)) with true by lia. unfold snprintf.
  replace (len mem - (1 + 0 + len b) <=? 0) with false by lia. rewrite take_all by (change (len ([STAR] ++ hex2 (xor_of b) ++ [CR; LF])) with 5; lia).
  rewrite write_ok; [|lia|change (len (([STAR] ++ hex2 (xor_of b) ++ [CR; LF]) ++ [0])) with 6; lia]. cbn [bind]. f_equal.
  assert (TM : take (1 + 0 + len b) mem = DOLLAR :: b).
  { rewrite EM. change ((DOLLAR :: b) ++ 0 :: rest) with ((DOLLAR :: b) ++ (0 :: rest)). apply take_app_eq. rewrite len_cons. lia. }
  rewrite TM. match goal with |- context [drop ?a ?b] => generalize (drop a b) end. intros r.
  match goal with |- cstring ?x = _ => replace x with ((DOLLAR :: b ++ [STAR] ++ hex2 (xor_of b) ++ [CR; LF]) ++ 0 :: r) by (rewrite <- ?app_comm_cons, <- ?app_assoc; reflexivity) end.
  apply cstring_app. constructor; [discriminate|]. apply Forall_app. split; [eapply Forall_impl; [|exact FP]; intros c X; apply X|].
  constructor; [discriminate|]. apply Forall_app. split; [apply hex2_nonzero; apply xor_byte; [exact BB|lia]|]. repeat constructor; discriminate.
Qed.
