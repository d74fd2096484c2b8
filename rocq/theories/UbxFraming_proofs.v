(** Proofs about the UBX frame reader: the reader only ever consumes a prefix of what the stream still holds, and on streams
    that deliver data until they end it behaves as on one flat byte string. *)
From Verif Require Import Base UbxFraming_model UbxFraming_spec.

Lemma all_data_cons r rs : all_data (r :: rs) = (match r with RData l => l | RStop _ => [] end) ++ all_data rs.
Proof. reflexivity. Qed.

(** ** reading consumes a prefix *)
Lemma read_loop_pending acc n buf rs r s :
  0 <= n -> read_loop acc n buf rs = (r, s) ->
  match r with
  | ROk l => exists m, l = acc ++ m /\ len m = n /\ buf ++ all_data rs = m ++ pending s
  | RErr _ => exists g, buf ++ all_data rs = g ++ pending s
  end.
Proof.
  revert acc n buf. induction rs as [|x rs IH]; intros acc n buf Hn E; cbn [read_loop] in E;
    destruct (len buf <? n) eqn:Hl.
  - injection E as <- <-. exists buf. reflexivity.
  - injection E as <- <-. exists (take n buf). split; [reflexivity|]. split; [rewrite len_take; lia|].
    unfold pending; cbn [u_buf u_reads]. now rewrite app_assoc, take_drop.
  - destruct x as [l|k].
    + apply IH in E; [|lia]. rewrite all_data_cons. destruct r as [l'|k].
      * destruct E as (m & -> & Hm & E). exists (buf ++ m). rewrite <- !app_assoc. repeat split.
        -- rewrite len_app. lia.
        -- now rewrite E.
      * destruct E as (g & E). exists (buf ++ g). now rewrite <- app_assoc, E.
    + injection E as <- <-. exists buf. reflexivity.
  - injection E as <- <-. exists (take n buf). split; [reflexivity|]. split; [rewrite len_take; lia|].
    unfold pending; cbn [u_buf u_reads]. now rewrite app_assoc, take_drop.
Qed.
Lemma read_bytes_ok n s l s' : 0 <= n -> read_bytes n s = (ROk l, s') -> len l = n /\ pending s = l ++ pending s'.
Proof. intros Hn E. apply read_loop_pending in E; [|exact Hn]. destruct E as (m & -> & Hm & E). now split. Qed.
Lemma read_bytes_err n s k s' : 0 <= n -> read_bytes n s = (RErr k, s') -> exists g, pending s = g ++ pending s'.
Proof. intros Hn E. apply read_loop_pending in E; [exact E|exact Hn]. Qed.

Lemma len1 {A} (d : A) l : len l = 1 -> l = [znth d 0 l].
Proof.
  destruct l as [|a [|b l]]; rewrite ?len_cons; change (len (@nil A)) with 0; intros; try reflexivity; try lia.
  pose proof (len_nonneg l); lia.
Qed.
Lemma len4 {A} (d : A) l : len l = 4 -> l = [znth d 0 l; znth d 1 l; znth d 2 l; znth d 3 l].
Proof.
  destruct l as [|a [|b [|c [|e [|f l]]]]]; rewrite ?len_cons; change (len (@nil A)) with 0; intros; try reflexivity; try lia.
  pose proof (len_nonneg l); lia.
Qed.
Lemma len2 {A} (d : A) l : len l = 2 -> l = [znth d 0 l; znth d 1 l].
Proof.
  destruct l as [|a [|b [|c l]]]; rewrite ?len_cons; change (len (@nil A)) with 0; intros; try reflexivity; try lia.
  pose proof (len_nonneg l); lia.
Qed.

(** ** Fletcher *)
Lemma checksum_from l : forall a b,
  fold_left (fun ck x => let c := (fst ck + x) mod 256 in (c, (snd ck + c) mod 256)) l (a mod 256, b mod 256)
  = ((a + fold_right Z.add 0 l) mod 256, (b + len l * a + weighted l) mod 256).
Proof.
  induction l as [|x l IH]; intros a b; cbn [fold_left fold_right weighted].
  - change (len (@nil Z)) with 0. now rewrite Z.mul_0_l, !Z.add_0_r.
  - cbn [fst snd]. rewrite Zplus_mod_idemp_l. rewrite <- Zplus_mod. rewrite IH. rewrite len_cons. f_equal; f_equal; ring.
Qed.
Lemma checksum_fletcher l : fletcher l = [fst (ubx_checksum l); snd (ubx_checksum l)].
Proof.
  pose proof (checksum_from l 0 0) as H. change (0 mod 256) with 0 in H.
  assert (U : ubx_checksum l = _) by exact H. rewrite U. cbn [fst snd]. clear.
  unfold fletcher. rewrite Z.mul_0_r, Z.add_0_r, !Z.add_0_l. reflexivity.
Qed.

(** ** every delivered frame is on the wire *)
Lemma skip_sync_pending fuel : forall b s r s', skip_sync fuel b s = (r, s') ->
  match r with
  | inl (Some b') => exists k, b :: pending s = repeat SYNC1 k ++ b' :: pending s' /\ b' <> SYNC1
  | _ => exists g, pending s = g ++ pending s'
  end.
Proof.
  induction fuel as [|fuel IH]; intros b s r s' E; cbn [skip_sync] in E.
  - injection E as <- <-. now exists [].
  - destruct (Z.eqb_spec b SYNC1) as [->|Hb].
    + destruct (read_bytes 1 s) as [[l|k] s1] eqn:R.
      * apply read_bytes_ok in R; [|lia]. destruct R as [Hl R]. rewrite (len1 0 l Hl) in R. apply IH in E.
        destruct r as [[b'|]|k].
        -- destruct E as (k & E & Hb'). exists (S k). cbn [repeat app]. rewrite R. cbn [app]. now rewrite E.
        -- destruct E as (g & E). exists (znth 0 0 l :: g). rewrite R, E. reflexivity.
        -- destruct E as (g & E). exists (znth 0 0 l :: g). rewrite R, E. reflexivity.
      * injection E as <- <-. now apply read_bytes_err in R.
    + injection E as <- <-. now exists 0%nat.
Qed.

Lemma repeat_snoc {A} (x : A) k l : repeat x k ++ x :: l = x :: repeat x k ++ l.
Proof. induction k; cbn; [reflexivity|]. now f_equal. Qed.

Lemma frame_loop_pending fuel : forall s r s', bytes (pending s) -> frame_loop fuel s = (r, s') ->
  match r with
  | FFrame f => ubx_body f /\ exists g, pending s = g ++ on_wire f ++ pending s'
  | _ => exists g, pending s = g ++ pending s'
  end.
Proof.
  induction fuel as [|fuel IH]; intros s r s' Hbs E; cbn [frame_loop] in E.
  { injection E as <- <-. now exists []. }
  assert (Again : forall s1 g, pending s = g ++ pending s1 -> frame_loop fuel s1 = (r, s') ->
    match r with FFrame f => ubx_body f /\ exists g, pending s = g ++ on_wire f ++ pending s' | _ => exists g, pending s = g ++ pending s' end).
  { intros s1 g Hp E1. apply IH in E1.
    - destruct r as [f|k|].
      + destruct E1 as (Hf & g' & E1). split; [exact Hf|]. exists (g ++ g'). rewrite Hp, E1. now rewrite <- app_assoc.
      + destruct E1 as (g' & E1). exists (g ++ g'). rewrite Hp, E1. now rewrite <- app_assoc.
      + destruct E1 as (g' & E1). exists (g ++ g'). rewrite Hp, E1. now rewrite <- app_assoc.
    - unfold bytes in *. rewrite Hp in Hbs. apply Forall_app in Hbs. tauto. }
  assert (Stop : forall s1 g k, pending s = g ++ pending s1 -> (FStop k, s1) = (r, s') ->
    match r with FFrame f => ubx_body f /\ exists g, pending s = g ++ on_wire f ++ pending s' | _ => exists g, pending s = g ++ pending s' end).
  { intros s1 g k Hp E1. injection E1 as <- <-. now exists g. }
  destruct (read_bytes 1 s) as [[l|k] s1] eqn:R1.
  2:{ apply read_bytes_err in R1; [|lia]. destruct R1 as (g & R1). exact (Stop _ _ _ R1 E). }
  apply read_bytes_ok in R1; [|lia]. destruct R1 as [Hl R1]. rewrite (len1 0 l Hl) in R1.
  destruct (Z.eqb_spec (znth 0 0 l) SYNC1) as [Hb|Hb]; cbn [negb] in E.
  2:{ exact (Again _ _ R1 E). }
  rewrite Hb in R1, E. destruct (skip_sync fuel SYNC1 s1) as [o s2] eqn:K. apply skip_sync_pending in K.
  destruct o as [[b|]|k].
  2:{ injection E as <- <-. destruct K as (g & K). exists ([SYNC1] ++ g). rewrite R1, K. reflexivity. }
  2:{ destruct K as (g & K). refine (Stop _ ([SYNC1] ++ g) _ _ E). rewrite R1, K. reflexivity. }
  destruct K as (k & K & Hns). cbn [app] in R1. rewrite K in R1.
  destruct (Z.eqb_spec b SYNC2) as [->|Hb2]; cbn [negb] in E.
  2:{ apply (Again s2 (repeat SYNC1 k ++ [b])); [|exact E]. rewrite R1, <- app_assoc. reflexivity. }
  destruct k as [|k]; [cbn in K; discriminate K|]. cbn [repeat app] in R1.
  assert (R2 : pending s = repeat SYNC1 k ++ SYNC1 :: SYNC2 :: pending s2) by (rewrite R1; now rewrite repeat_snoc).
  clear R1 K.
  destruct (read_bytes 4 s2) as [[hd|kk] s3] eqn:R3.
  2:{ apply read_bytes_err in R3; [|lia]. destruct R3 as (g & R3). refine (Stop _ (repeat SYNC1 k ++ SYNC1 :: SYNC2 :: g) _ _ E).
      rewrite R2, R3, <- app_assoc. reflexivity. }
  apply read_bytes_ok in R3; [|lia]. destruct R3 as [Hhd R3].
  assert (R4 : pending s = repeat SYNC1 k ++ SYNC1 :: SYNC2 :: hd ++ pending s3) by (rewrite R2, R3; reflexivity).
  set (pl := znth 0 2 hd + Z.shiftl (znth 0 3 hd) 8) in *.
  assert (Hhb : bytes hd).
  { unfold bytes in *. rewrite R4 in Hbs. apply Forall_app in Hbs. destruct Hbs as [_ Hbs]. inversion Hbs as [|? ? _ H1]; subst.
    inversion H1 as [|? ? _ H2]; subst. now apply Forall_app in H2. }
  assert (B2 : byte (znth 0 2 hd)) by (apply Forall_znth; [exact Hhb|lia]).
  assert (B3 : byte (znth 0 3 hd)) by (apply Forall_znth; [exact Hhb|lia]).
  assert (Hpl : pl = znth 0 2 hd + 256 * znth 0 3 hd) by (unfold pl; rewrite Z.shiftl_mul_pow2 by lia; lia).
  unfold byte in B2, B3.
  destruct (Z.ltb_spec (UBX_FRAME_SIZE - 6) pl) as [Hbig|Hsz].
  { apply (Again s3 (repeat SYNC1 k ++ SYNC1 :: SYNC2 :: hd)); [|exact E]. rewrite R4, <- app_assoc. reflexivity. }
  destruct (read_bytes (pl + 2) s3) as [[bd|kk] s4] eqn:R5.
  2:{ apply read_bytes_err in R5; [|lia]. destruct R5 as (g & R5).
      refine (Stop _ (repeat SYNC1 k ++ SYNC1 :: SYNC2 :: hd ++ g) _ _ E). rewrite R4, R5, <- !app_assoc. cbn [app]. now rewrite <- !app_assoc. }
  apply read_bytes_ok in R5; [|lia]. destruct R5 as [Hbd R5].
  assert (R6 : pending s = repeat SYNC1 k ++ SYNC1 :: SYNC2 :: (hd ++ bd) ++ pending s4) by (rewrite R4, R5, <- app_assoc; reflexivity).
  set (frame := hd ++ bd) in *.
  assert (Hfl : len frame = pl + 6) by (unfold frame; rewrite len_app; lia).
  destruct (negb _) eqn:Hck in E.
  { apply (Again s4 (repeat SYNC1 k ++ SYNC1 :: SYNC2 :: frame)); [|exact E]. rewrite R6, <- app_assoc. reflexivity. }
  injection E as <- <-.
  apply negb_false_iff, andb_true_iff in Hck. destruct Hck as [Ha Hc]. apply Z.eqb_eq in Ha, Hc.
  rewrite (Z.add_comm 4 pl) in Ha; rewrite (Z.add_comm 4 pl) in Hc. set (f := take (pl + 4) frame) in *.
  assert (Htail : frame = f ++ fletcher f).
  { rewrite checksum_fletcher, Ha, Hc. rewrite <- (take_drop (pl + 4) frame) at 1. f_equal.
    rewrite (len2 0 (drop (pl + 4) frame)) by (rewrite len_drop; lia).
    rewrite !znth_drop by lia. rewrite Z.add_0_r. replace (pl + 4 + 1) with (5 + pl) by lia. reflexivity. }
  split.
  - unfold ubx_body.
    assert (Hf : f = hd ++ take pl bd) by (unfold f, frame; rewrite take_app_r by lia; f_equal; f_equal; lia).
    exists (znth 0 0 hd), (znth 0 1 hd), (znth 0 2 hd), (znth 0 3 hd), (take pl bd).
    split; [rewrite Hf; rewrite (len4 0 hd Hhd) at 1; reflexivity|]. split.
    + unfold bytes in *. rewrite R6 in Hbs. apply Forall_app in Hbs. destruct Hbs as [_ Hbs]. inversion Hbs as [|? ? _ H1]; subst.
      inversion H1 as [|? ? _ H2]; subst. apply Forall_app in H2. destruct H2 as [H2 _]. rewrite Htail in H2. now apply Forall_app in H2.
    + rewrite len_take. unfold UBX_FRAME_SIZE in Hsz. lia.
  - exists (repeat SYNC1 k). unfold on_wire. rewrite R6, Htail. cbn [app]. reflexivity.
Qed.

(** ** the number of bytes read bounds the number of iterations *)
Lemma pending_len_lt s l s' : len l = 1 -> pending s = l ++ pending s' -> (length (pending s') < length (pending s))%nat.
Proof. intros Hl ->. rewrite app_length. unfold len in Hl. lia. Qed.
Lemma skip_sync_fuel fuel : forall b s, (length (pending s) < fuel)%nat -> fst (skip_sync fuel b s) <> inl None.
Proof.
  induction fuel as [|fuel IH]; intros b s Hf; [lia|]. cbn [skip_sync]. destruct (b =? SYNC1); [|discriminate].
  destruct (read_bytes 1 s) as [[l|k] s1] eqn:R; [|discriminate]. apply read_bytes_ok in R; [|lia]. destruct R as [Hl R].
  apply IH. pose proof (pending_len_lt _ _ _ Hl R). lia.
Qed.
Lemma app_length_le {A} (l g r : list A) : l = g ++ r -> (length r <= length l)%nat.
Proof. intros ->. rewrite app_length. lia. Qed.
Lemma frame_loop_fuel fuel : forall s, bytes (pending s) -> (length (pending s) < fuel)%nat -> fst (frame_loop fuel s) <> FFuel.
Proof.
  induction fuel as [|fuel IH]; intros s Hbs Hf; [lia|]. cbn [frame_loop].
  destruct (read_bytes 1 s) as [[l|k] s1] eqn:R; [|discriminate]. apply read_bytes_ok in R; [|lia]. destruct R as [Hl R].
  pose proof (pending_len_lt _ _ _ Hl R) as Hlt.
  assert (Hbs1 : bytes (pending s1)) by (unfold bytes in *; rewrite R in Hbs; apply Forall_app in Hbs; tauto).
  assert (Again : forall s2 g, pending s1 = g ++ pending s2 -> fst (frame_loop fuel s2) <> FFuel).
  { intros s2 g E. apply IH; [unfold bytes in *; rewrite E in Hbs1; apply Forall_app in Hbs1; tauto|].
    apply app_length_le in E. lia. }
  destruct (negb _); [apply (Again s1 []); reflexivity|].
  destruct (skip_sync fuel (znth 0 0 l) s1) as [o s2] eqn:K.
  pose proof (skip_sync_fuel fuel (znth 0 0 l) s1 ltac:(lia)) as Hn. rewrite K in Hn. cbn [fst] in Hn.
  apply skip_sync_pending in K. destruct o as [[b|]|k]; [|congruence|discriminate].
  assert (K' : exists g, pending s1 = g ++ pending s2).
  { destruct K as (k & K & _). destruct k; cbn in K; injection K as K1 K2; [now exists []|].
    exists (repeat SYNC1 k ++ [b]). rewrite <- app_assoc. exact K2. }
  destruct K' as (g & K').
  destruct (negb _); [exact (Again _ _ K')|].
  destruct (read_bytes 4 s2) as [[hd|k] s3] eqn:R3; [|discriminate]. apply read_bytes_ok in R3; [|lia]. destruct R3 as [Hhd R3].
  assert (K3 : pending s1 = (g ++ hd) ++ pending s3) by (rewrite K', R3; apply app_assoc).
  assert (Hhb : bytes hd).
  { unfold bytes in *. rewrite K3 in Hbs1. apply Forall_app in Hbs1. destruct Hbs1 as [H _]. now apply Forall_app in H. }
  assert (B2 : byte (znth 0 2 hd)) by (apply Forall_znth; [exact Hhb|lia]).
  assert (B3 : byte (znth 0 3 hd)) by (apply Forall_znth; [exact Hhb|lia]). unfold byte in B2, B3.
  assert (Hpl : 0 <= znth 0 2 hd + Z.shiftl (znth 0 3 hd) 8) by (rewrite Z.shiftl_mul_pow2 by lia; lia).
  destruct (_ <? _); [exact (Again _ _ K3)|].
  destruct (read_bytes (_ + 2) s3) as [[bd|k] s4] eqn:R5; [|discriminate]. apply read_bytes_ok in R5; [|lia]. destruct R5 as [Hbd R5].
  destruct (negb _); [|discriminate]. apply (Again s4 ((g ++ hd) ++ bd)). rewrite K3, R5. apply app_assoc.
Qed.
Lemma read_frame_terminates s : bytes (pending s) -> fst (read_frame s) <> FFuel.
Proof. intros H. apply frame_loop_fuel; [exact H|lia]. Qed.

Lemma contains_app g fs s : contains fs s -> contains fs (g ++ s).
Proof. destruct 1; [constructor|]. rewrite app_assoc. now constructor. Qed.
Lemma calls_contained n : forall s, bytes (pending s) -> contains (frames_of (fst (calls n s))) (pending s).
Proof.
  induction n as [|n IH]; intros s Hb; cbn [calls]; [constructor|].
  destruct (read_frame s) as [r s1] eqn:R. destruct (calls n s1) as [rs s2] eqn:C. cbn [fst].
  pose proof (frame_loop_pending _ _ _ _ Hb R) as P.
  assert (Hs : bytes (pending s1)).
  { destruct r as [f|k|].
    - destruct P as (_ & g & P). unfold bytes in *. rewrite P in Hb. rewrite !Forall_app in Hb. tauto.
    - destruct P as (g & P). unfold bytes in *. rewrite P in Hb. rewrite !Forall_app in Hb. tauto.
    - destruct P as (g & P). unfold bytes in *. rewrite P in Hb. rewrite !Forall_app in Hb. tauto. }
  specialize (IH s1 Hs). rewrite C in IH. cbn [fst] in IH.
  destruct r as [f|k|]; cbn [frames_of flat_map app] in *; fold (frames_of rs).
  - destruct P as (Hf & g & ->). now constructor.
  - destruct P as (g & ->). now apply contains_app.
  - destruct P as (g & ->). now apply contains_app.
Qed.

(** ** data-only streams behave like one flat byte string *)
Definition flat (l : list Z) : ustate := mku l [].
Lemma read_loop_flat acc n buf rs : 0 <= n -> data_only rs -> exists r s s',
  read_loop acc n buf rs = (r, s) /\ read_loop acc n (buf ++ all_data rs) [] = (r, s') /\ data_only (u_reads s) /\ s' = flat (pending s).
Proof.
  revert acc n buf. induction rs as [|x rs IH]; intros acc n buf Hn Hd.
  - cbn [all_data flat_map]. rewrite app_nil_r. cbn [read_loop]. destruct (len buf <? n).
    + do 3 eexists. repeat split. constructor.
    + do 3 eexists. split; [reflexivity|]. split; [reflexivity|]. split; [constructor|]. unfold flat, pending. cbn. now rewrite app_nil_r.
  - inversion Hd as [|? ? [l ->] Hd']; subst. rewrite all_data_cons. cbn [read_loop].
    destruct (Z.ltb_spec (len buf) n) as [Hl|Hl].
    + destruct (IH (acc ++ buf) (n - len buf) l ltac:(lia) Hd') as (r & s & s' & E1 & E2 & H3 & H4).
      exists r, s, s'. split; [exact E1|]. split; [|split; assumption]. rewrite <- E2. cbn [read_loop].
      rewrite (len_app buf). 
      destruct (Z.ltb_spec (len (l ++ all_data rs)) (n - len buf)); destruct (Z.ltb_spec (len buf + len (l ++ all_data rs)) n); try lia.
      * reflexivity.
      * rewrite take_app_r, drop_app_r by lia. now rewrite app_assoc.
    + do 3 eexists. split; [reflexivity|]. rewrite len_app. pose proof (len_nonneg (l ++ all_data rs)).
      destruct (Z.ltb_spec (len buf + len (l ++ all_data rs)) n); [lia|]. split; [rewrite take_app_l by lia; reflexivity|].
      split; [exact Hd|]. rewrite drop_app_l by lia. unfold flat, pending. cbn [u_buf u_reads]. now rewrite all_data_cons.
Qed.
Definition fine (s : ustate) : Prop := data_only (u_reads s).
Lemma read_bytes_flat n s : 0 <= n -> fine s -> exists r s',
  read_bytes n s = (r, s') /\ read_bytes n (flat (pending s)) = (r, flat (pending s')) /\ fine s'.
Proof.
  intros Hn Hf. destruct (read_loop_flat [] n (u_buf s) (u_reads s) Hn Hf) as (r & s1 & s2 & E1 & E2 & H3 & ->).
  now exists r, s1.
Qed.
Lemma skip_sync_flat fuel : forall b s, fine s -> exists r s',
  skip_sync fuel b s = (r, s') /\ skip_sync fuel b (flat (pending s)) = (r, flat (pending s')) /\ fine s'.
Proof.
  induction fuel as [|fuel IH]; intros b s Hf; cbn [skip_sync].
  - now exists (inl None), s.
  - destruct (b =? SYNC1); [|now exists (inl (Some b)), s].
    destruct (read_bytes_flat 1 s ltac:(lia) Hf) as (r & s1 & -> & -> & H1). destruct r as [l|k]; [now apply IH|now exists (inr k), s1].
Qed.
Lemma frame_loop_flat fuel : forall s, fine s -> bytes (pending s) -> exists r s',
  frame_loop fuel s = (r, s') /\ frame_loop fuel (flat (pending s)) = (r, flat (pending s')) /\ fine s'.
Proof.
  induction fuel as [|fuel IH]; intros s Hf Hb; cbn [frame_loop].
  { now exists FFuel, s. }
  destruct (read_bytes_flat 1 s ltac:(lia) Hf) as (r & s1 & E & -> & H1). rewrite E.
  destruct r as [l|k]; [|now eexists _, s1]. apply read_bytes_ok in E; [|lia]. destruct E as [_ E].
  assert (B1 : bytes (pending s1)) by (unfold bytes in *; rewrite E in Hb; apply Forall_app in Hb; tauto).
  destruct (negb _); [now apply IH|].
  destruct (skip_sync_flat fuel (znth 0 0 l) s1 H1) as (o & s2 & K & -> & H2). rewrite K. apply skip_sync_pending in K.
  destruct o as [[b|]|k]; [|now eexists _, s2|now eexists _, s2].
  assert (B2 : bytes (pending s2)).
  { destruct K as (k & K & _). unfold bytes in *. destruct k; cbn in K; injection K as _ K; [now rewrite <- K|].
    rewrite K in B1. apply Forall_app in B1. destruct B1 as [_ B1]. now inversion B1. }
  destruct (negb _); [now apply IH|].
  destruct (read_bytes_flat 4 s2 ltac:(lia) H2) as (r & s3 & E3 & -> & H3). rewrite E3.
  destruct r as [hd|k]; [|now eexists _, s3]. apply read_bytes_ok in E3; [|lia]. destruct E3 as [Hhd E3].
  assert (B3 : bytes (pending s3)) by (unfold bytes in *; rewrite E3 in B2; apply Forall_app in B2; tauto).
  assert (Hpl : 0 <= znth 0 2 hd + Z.shiftl (znth 0 3 hd) 8).
  { rewrite Z.shiftl_mul_pow2 by lia.
    assert (Bh : bytes hd) by (unfold bytes in *; rewrite E3 in B2; apply Forall_app in B2; tauto).
    assert (b2 : byte (znth 0 2 hd)) by (apply Forall_znth; [exact Bh|lia]).
    assert (b3 : byte (znth 0 3 hd)) by (apply Forall_znth; [exact Bh|lia]). unfold byte in *. lia. }
  destruct (_ <? _); [now apply IH|].
  destruct (read_bytes_flat (znth 0 2 hd + Z.shiftl (znth 0 3 hd) 8 + 2) s3 ltac:(lia) H3) as (r & s4 & E4 & -> & H4). rewrite E4.
  destruct r as [bd|k]; [|now eexists _, s4]. apply read_bytes_ok in E4; [|lia]. destruct E4 as [_ E4].
  assert (B4 : bytes (pending s4)) by (unfold bytes in *; rewrite E4 in B3; apply Forall_app in B3; tauto).
  cbv zeta. destruct (negb _); [now apply IH|]. now eexists _, s4.
Qed.
Lemma pending_flat l : pending (flat l) = l.
Proof. unfold pending, flat. cbn. apply app_nil_r. Qed.
Lemma until_stop_flat fuel : forall s, fine s -> bytes (pending s) -> fst (until_stop fuel s) = fst (until_stop fuel (flat (pending s))).
Proof.
  induction fuel as [|fuel IH]; intros s Hf Hb; cbn [until_stop]; [reflexivity|].
  unfold read_frame. rewrite pending_flat.
  destruct (frame_loop_flat (S (length (pending s))) s Hf Hb) as (r & s1 & E & -> & H1). rewrite E.
  destruct r as [f|k|]; [|reflexivity|reflexivity]. apply frame_loop_pending in E; [|exact Hb]. destruct E as (_ & g & E).
  assert (B1 : bytes (pending s1)) by (unfold bytes in *; rewrite E in Hb; rewrite !Forall_app in Hb; tauto).
  specialize (IH s1 H1 B1). destruct (until_stop fuel s1), (until_stop fuel (flat (pending s1))). cbn [fst] in *. now rewrite IH.
Qed.
Lemma process_flat s : fine s -> bytes (pending s) -> process_all s = process_all (flat (pending s)).
Proof. intros. unfold process_all. rewrite pending_flat. now apply until_stop_flat. Qed.

(** ** delivery *)
Lemma flat_read n l r : len l = n -> read_bytes n (flat (l ++ r)) = (ROk l, flat r).
Proof.
  intros H. unfold read_bytes, flat. cbn [u_buf u_reads read_loop]. rewrite len_app. pose proof (len_nonneg r).
  destruct (Z.ltb_spec (len l + len r) n); [lia|]. rewrite take_app_eq, drop_app_eq by exact H. reflexivity.
Qed.
Lemma flat_read1 b r : read_bytes 1 (flat (b :: r)) = (ROk [b], flat r).
Proof. apply (flat_read 1 [b] r). reflexivity. Qed.
Lemma flat_read1_nil : read_bytes 1 (flat []) = (RErr 0, flat []). Proof. reflexivity. Qed.

(** what follows a B5 in a gap *)
Lemma skip_gap w g : forall fuel, no_sync (SYNC1 :: g) -> (w = [] \/ exists w', w = SYNC1 :: SYNC2 :: w') -> (length (g ++ w) < fuel)%nat ->
  (exists w', w = SYNC1 :: SYNC2 :: w' /\ skip_sync fuel SYNC1 (flat (g ++ w)) = (inl (Some SYNC2), flat w')) \/
  (w = [] /\ skip_sync fuel SYNC1 (flat (g ++ w)) = (inr 0, flat [])) \/
  (exists b g', b <> SYNC2 /\ no_sync g' /\ (length g' < length g)%nat /\ (exists h, g = h ++ g') /\
                skip_sync fuel SYNC1 (flat (g ++ w)) = (inl (Some b), flat (g' ++ w))).
Proof.
  induction g as [|a g IH]; intros fuel Hns Hw Hf.
  - cbn [app] in *. destruct Hw as [->|(w' & ->)].
    + right; left. split; [reflexivity|]. destruct fuel; [cbn in Hf; lia|]. reflexivity.
    + left. exists w'. split; [reflexivity|]. destruct fuel as [|[|[|fuel]]]; cbn [length] in Hf; try lia.
      cbn [skip_sync]. rewrite Z.eqb_refl, flat_read1, znth_0. cbn [skip_sync]. rewrite Z.eqb_refl, flat_read1, znth_0. reflexivity.
  - destruct fuel; [lia|]. cbn [skip_sync]. rewrite Z.eqb_refl. cbn [app]. rewrite flat_read1, znth_0.
    destruct Hns as [Hpair Hns].
    destruct (Z.eqb_spec a SYNC1) as [->|Ha].
    + cbn [app length] in Hf. destruct (IH fuel Hns Hw ltac:(lia)) as [(w' & -> & E)|[[-> E]|(b & g' & Hb & Hg' & Hl & (h & Hh) & E)]].
      * left. now exists w'.
      * right; left. now split.
      * right; right. exists b, g'. repeat split; try assumption; [cbn; lia|]. exists (SYNC1 :: h). now rewrite Hh.
    + right; right. exists a, g. repeat split.
      * intros ->. apply Hpair. now split.
      * destruct Hns as [_ H]. exact H.
      * cbn; lia.
      * now exists [a].
      * destruct fuel; [rewrite app_length in Hf; cbn in Hf; lia|]. cbn [skip_sync].
        destruct (Z.eqb_spec a SYNC1); [contradiction|]. reflexivity.
Qed.
Lemma frame_at_gap f rest : ubx_body f -> forall fuel g, no_sync g -> (length (g ++ on_wire f ++ rest) < fuel)%nat ->
  frame_loop fuel (flat (g ++ on_wire f ++ rest)) = (FFrame f, flat rest).
Proof.
  intros Hbody. induction fuel as [|fuel IH]; intros g Hg Hf; [lia|].
  assert (Hwf : on_wire f ++ rest = SYNC1 :: SYNC2 :: f ++ fletcher f ++ rest) by (unfold on_wire; cbn [app]; now rewrite <- app_assoc).
  assert (Parse : forall fuel', fuel' = fuel ->
     match read_bytes 4 (flat (f ++ fletcher f ++ rest)) with
     | (RErr k, s) => (FStop (stop_code k), s)
     | (ROk hd, s) =>
       let payload_length := znth 0 2 hd + Z.shiftl (znth 0 3 hd) 8 in
       if UBX_FRAME_SIZE - 6 <? payload_length then frame_loop fuel' s
       else
         match read_bytes (payload_length + 2) s with
         | (RErr k, s) => (FStop (stop_code k), s)
         | (ROk body, s) =>
           let frame := hd ++ body in
           let ck := ubx_checksum (take (4 + payload_length) frame) in
           if negb ((fst ck =? znth 0 (4 + payload_length) frame) && (snd ck =? znth 0 (5 + payload_length) frame))
           then frame_loop fuel' s
           else (FFrame (take (payload_length + 4) frame), s)
         end
     end = (FFrame f, flat rest)).
  { intros fuel' _. destruct Hbody as (cls & id & lo & hi & pl & -> & Hbs & Hlen & Hmax).
    change ((cls :: id :: lo :: hi :: pl) ++ fletcher (cls :: id :: lo :: hi :: pl) ++ rest)
      with ([cls; id; lo; hi] ++ (pl ++ fletcher (cls :: id :: lo :: hi :: pl) ++ rest)).
    rewrite flat_read by reflexivity. 
    change (znth 0 2 [cls; id; lo; hi]) with lo. change (znth 0 3 [cls; id; lo; hi]) with hi.
    rewrite Z.shiftl_mul_pow2 by lia. change (2 ^ 8) with 256. rewrite (Z.mul_comm hi 256), <- Hlen. cbv zeta.
    destruct (Z.ltb_spec (UBX_FRAME_SIZE - 6) (len pl)); [unfold UBX_FRAME_SIZE in *; lia|].
    rewrite app_assoc. rewrite flat_read by (rewrite len_app; reflexivity).
    set (f := cls :: id :: lo :: hi :: pl).
    change ([cls; id; lo; hi] ++ pl ++ fletcher f) with (f ++ fletcher f).
    assert (Hlf : len f = 4 + len pl) by (unfold f; rewrite !len_cons; lia).
    rewrite <- Hlf. rewrite (Z.add_comm (len pl) 4), <- Hlf. rewrite take_app_exact.
    replace (5 + len pl) with (len f + 1) by lia.
    rewrite !znth_app_r by lia. replace (len f - len f) with 0 by lia. replace (len f + 1 - len f) with 1 by lia.
    rewrite checksum_fletcher. cbn [znth nth Z.to_nat Pos.to_nat Pos.iter_op Nat.add]. unfold znth. cbn. rewrite !Z.eqb_refl. reflexivity. }
  cbn [frame_loop]. destruct g as [|a g].
  - cbn [app]. rewrite Hwf. rewrite flat_read1, znth_0. rewrite Z.eqb_refl. cbn [negb].
    cbn [app] in Hf. rewrite Hwf in Hf. cbn [length] in Hf.
    destruct fuel as [|[|fuel]]; try lia.
    assert (SK : forall k, skip_sync (S (S k)) SYNC1 (flat (SYNC2 :: f ++ fletcher f ++ rest)) = (inl (Some SYNC2), flat (f ++ fletcher f ++ rest))).
    { intros k. cbn [skip_sync]. rewrite Z.eqb_refl, flat_read1, znth_0. reflexivity. }
    rewrite SK. rewrite Z.eqb_refl. cbn [negb]. now apply Parse.
  - cbn [app]. rewrite flat_read1, znth_0. cbn [app length] in Hf.
    destruct (Z.eqb_spec a SYNC1) as [->|Ha]; cbn [negb].
    + destruct (skip_gap (on_wire f ++ rest) g fuel Hg) as [(w' & Ew & E)|[[Ew E]|(b & g' & Hb & Hg' & Hl & (h & Hh) & E)]].
      * right. now exists (f ++ fletcher f ++ rest).
      * lia.
      * rewrite E. rewrite Z.eqb_refl. cbn [negb]. rewrite Hwf in Ew. injection Ew as <-. now apply Parse.
      * rewrite Hwf in Ew. discriminate.
      * rewrite E. destruct (Z.eqb_spec b SYNC2); [contradiction|]. cbn [negb]. apply IH; [exact Hg'|].
        rewrite app_length in *. lia.
    + apply IH; [|lia]. destruct Hg as [_ H]. exact H.
Qed.
Lemma stop_at_gap : forall fuel g, no_sync g -> (length g < fuel)%nat -> frame_loop fuel (flat g) = (FStop (-1), flat []).
Proof.
  induction fuel as [|fuel IH]; intros g Hg Hf; [lia|]. cbn [frame_loop]. destruct g as [|a g].
  - reflexivity.
  - rewrite flat_read1, znth_0. cbn [length] in Hf. destruct (Z.eqb_spec a SYNC1) as [->|Ha]; cbn [negb].
    + destruct (skip_gap [] g fuel Hg) as [(w' & Ew & E)|[[Ew E]|(b & g' & Hb & Hg' & Hl & (h & Hh) & E)]].
      * now left.
      * rewrite app_nil_r. lia.
      * discriminate.
      * rewrite app_nil_r in E. rewrite E. reflexivity.
      * rewrite !app_nil_r in E. rewrite E. destruct (Z.eqb_spec b SYNC2); [contradiction|]. cbn [negb]. apply IH; [exact Hg'|lia].
    + apply IH; [|lia]. destruct Hg as [_ H]. exact H.
Qed.
Lemma until_stop_separated fs : forall s fuel, separated fs s -> (length s < fuel)%nat -> fst (until_stop fuel (flat s)) = fs.
Proof.
  induction fs as [|f fs IH]; intros s fuel Hsep Hf; destruct fuel as [|fuel]; try lia; cbn [until_stop]; unfold read_frame; rewrite pending_flat.
  - inversion Hsep; subst. rewrite stop_at_gap by (assumption || lia). reflexivity.
  - inversion Hsep as [|g ? ? rest Hg Hgb Hbody Hrest]; subst. rewrite frame_at_gap by (assumption || lia).
    specialize (IH rest fuel Hrest). unfold on_wire in Hf. rewrite !app_length in Hf. cbn [length] in Hf.
    destruct (until_stop fuel (flat rest)). cbn [fst] in *. rewrite IH; [reflexivity|lia].
Qed.

(** ** resynchronisation *)
Definition b5_free (l : list Z) : Prop := Forall (fun b => b <> SYNC1) l.
Lemma b5_free_no_sync l : b5_free l -> no_sync l.
Proof.
  induction l as [|a l IH]; intros H; [exact I|]. inversion H as [|? ? Ha Hl]; subst. split; [|now apply IH].
  destruct l; [exact I|]. intros [E _]. contradiction.
Qed.
Lemma flat_take n l : 0 <= n <= len l -> read_bytes n (flat l) = (ROk (take n l), flat (drop n l)).
Proof. intros H. rewrite <- (take_drop n l) at 1. apply flat_read. rewrite len_take. lia. Qed.
Definition quiet (w : list Z) (m : Z) (l : list Z) : Prop :=
  exists g fl, l = g ++ fl ++ w /\ b5_free fl /\ m <= len fl /\ (g = [] \/ 4097 <= len fl).
Lemma quiet_drop w m l n : quiet w m l -> 0 <= n <= m -> 0 <= n <= len l /\ quiet w (m - n) (drop n l).
Proof.
  intros (g & fl & -> & Hf & Hm & Hg) Hn. rewrite !len_app. pose proof (len_nonneg g). pose proof (len_nonneg w). split; [lia|].
  destruct (Z.le_gt_cases n (len g)).
  - exists (drop n g), fl. rewrite drop_app_l by lia. split; [reflexivity|]. split; [exact Hf|]. split; [lia|].
    destruct Hg as [->|Hg]; [left; destruct (Z.to_nat n) eqn:E; unfold drop; now rewrite E|now right].
  - exists [], (drop (n - len g) fl). cbn [app]. rewrite drop_app_r, drop_app_l by lia. split; [reflexivity|].
    split; [unfold b5_free, drop in *; rewrite <- (firstn_skipn (Z.to_nat (n - len g)) fl) in Hf; apply Forall_app in Hf; tauto|].
    split; [rewrite len_drop; lia|now left].
Qed.
Lemma skip_quiet w fl : b5_free fl -> 4097 <= len fl -> forall g fuel, (length (g ++ fl ++ w) < fuel)%nat ->
  exists b l, skip_sync fuel SYNC1 (flat (g ++ fl ++ w)) = (inl (Some b), flat l) /\ quiet w 4096 l /\ (length l < length (g ++ fl ++ w))%nat.
Proof.
  intros Hfl Hlen. induction g as [|a g IH]; intros fuel Hf.
  - cbn [app] in *. destruct fl as [|b fl]; [change (len (@nil Z)) with 0 in Hlen; lia|].
    inversion Hfl as [|? ? Hb Hfl']; subst. rewrite len_cons in Hlen. exists b, (fl ++ w). cbn [app length] in *.
    destruct fuel as [|[|fuel]]; try lia.
    cbn [skip_sync]. rewrite Z.eqb_refl, flat_read1, znth_0. cbn [skip_sync]. destruct (Z.eqb_spec b SYNC1); [contradiction|].
    split; [reflexivity|]. split; [|lia]. exists [], fl. repeat split; [exact Hfl'|lia|now left].
  - cbn [app length] in *. destruct fuel as [|fuel]; [lia|]. cbn [skip_sync]. rewrite Z.eqb_refl, flat_read1, znth_0.
    destruct (Z.eqb_spec a SYNC1) as [->|Ha].
    + destruct (IH fuel ltac:(lia)) as (b & l & E & Hq & Hl). exists b, l. repeat split; [exact E|exact Hq|lia].
    + exists a, (g ++ fl ++ w). destruct fuel; [lia|]. cbn [skip_sync]. destruct (Z.eqb_spec a SYNC1); [contradiction|].
      split; [reflexivity|]. split; [|lia]. exists g, fl. repeat split; [exact Hfl|lia|now right].
Qed.
Lemma length_drop_le {A} n (l : list A) : (length (drop n l) <= length l)%nat.
Proof. unfold drop. rewrite skipn_length. lia. Qed.
Lemma frame_quiet f rest : ubx_body f -> forall fuel l, quiet (on_wire f ++ rest) 0 l -> bytes l -> (length l < fuel)%nat ->
  exists f' l', frame_loop fuel (flat l) = (FFrame f', flat l') /\
    ((f' = f /\ l' = rest) \/ (quiet (on_wire f ++ rest) 0 l' /\ (length l' < length l)%nat)).
Proof.
  intros Hbody. induction fuel as [|fuel IH]; intros l Hq Hb Hf; [lia|].
  destruct Hq as (g & fl & -> & Hfl & _ & Hg). destruct g as [|a g].
  { exists f, rest. cbn [app] in *. split; [|now left]. apply frame_at_gap; [exact Hbody|now apply b5_free_no_sync|lia]. }
  destruct Hg as [Hg|Hlen]; [discriminate|]. cbn [frame_loop]. cbn [app]. rewrite flat_read1, znth_0.
  set (w := on_wire f ++ rest) in *. cbn [app length] in Hf. set (L := g ++ fl ++ w) in *.
  assert (HbL : bytes L) by (unfold bytes in *; cbn [app] in Hb; now inversion Hb).
  assert (Again : forall m l2, 0 <= m -> quiet w m l2 -> bytes l2 -> (length l2 <= length L)%nat ->
    exists f' l', frame_loop fuel (flat l2) = (FFrame f', flat l') /\
      ((f' = f /\ l' = rest) \/ (quiet w 0 l' /\ (length l' < length ((a :: g) ++ fl ++ w))%nat))).
  { intros m l2 Hm Hq2 Hb2 Hl2. destruct (IH l2) as (f' & l' & E & H).
    - destruct Hq2 as (g2 & fl2 & E2 & H1 & H2 & H3). exists g2, fl2. repeat split; [exact E2|exact H1|lia|exact H3].
    - exact Hb2.
    - lia.
    - exists f', l'. split; [exact E|]. destruct H as [H|[H1 H2]]; [now left|right]. split; [exact H1|].
      cbn [app length]. fold L. lia. }
  assert (HqL : quiet w 0 L) by (exists g, fl; repeat split; [exact Hfl|apply len_nonneg|now right]).
  destruct (Z.eqb_spec a SYNC1) as [->|Ha]; cbn [negb]; [|apply (Again 0 L); [lia|assumption|assumption|lia]].
  destruct (skip_quiet w fl Hfl Hlen g fuel ltac:(fold L; lia)) as (b & l2 & E & Hq2 & Hl2). fold L in E, Hl2.
  assert (Hb2 : bytes l2).
  { pose proof (skip_sync_pending _ _ _ _ _ E) as K. cbv beta iota in K. rewrite !pending_flat in K. destruct K as (k & K & _).
    unfold bytes in *. destruct k; cbn [repeat app] in K; [assert (K' : L = l2) by congruence; now rewrite <- K'|].
    assert (K' : L = repeat SYNC1 k ++ b :: l2) by congruence.
    rewrite K' in HbL. apply Forall_app in HbL. destruct HbL as [_ B1]. now inversion B1. }
  rewrite E. destruct (negb _); [apply (Again 4096 l2); [lia|assumption|assumption|lia]|].
  destruct (quiet_drop _ _ _ 4 Hq2 ltac:(lia)) as [Hn3 Hq3]. rewrite flat_take by lia.
  assert (Hb34 : bytes (take 4 l2) /\ bytes (drop 4 l2)).
  { unfold bytes in *. rewrite <- (take_drop 4 l2) in Hb2. now apply Forall_app in Hb2. }
  destruct Hb34 as [Hhd Hb3]. set (hd := take 4 l2) in *. set (l3 := drop 4 l2) in *.
  assert (Hlhd : len hd = 4) by (unfold hd; rewrite len_take; lia).
  assert (Hl3 : (length l3 <= length l2)%nat) by apply length_drop_le.
  assert (b2 : byte (znth 0 2 hd)) by (apply Forall_znth; [exact Hhd|lia]).
  assert (b3 : byte (znth 0 3 hd)) by (apply Forall_znth; [exact Hhd|lia]).
  assert (Hpl : 0 <= znth 0 2 hd + Z.shiftl (znth 0 3 hd) 8) by (rewrite Z.shiftl_mul_pow2 by lia; unfold byte in *; lia).
  set (pl := znth 0 2 hd + Z.shiftl (znth 0 3 hd) 8) in *. cbv zeta.
  destruct (Z.ltb_spec (UBX_FRAME_SIZE - 6) pl) as [|Hpm]; [apply (Again (4096 - 4) l3); [lia|assumption|assumption|lia]|].
  unfold UBX_FRAME_SIZE in Hpm.
  destruct (quiet_drop _ _ _ (pl + 2) Hq3 ltac:(lia)) as [Hn4 Hq4]. rewrite flat_take by lia. set (l4 := drop (pl + 2) l3) in *.
  assert (Hl4 : (length l4 <= length l3)%nat) by apply length_drop_le.
  assert (Hb4 : bytes l4) by (unfold bytes in *; rewrite <- (take_drop (pl + 2) l3) in Hb3; now apply Forall_app in Hb3).
  destruct (negb _); [apply (Again (4096 - 4 - (pl + 2)) l4); [lia|assumption|assumption|lia]|].
  eexists _, l4. split; [reflexivity|]. right. split.
  - destruct Hq4 as (g2 & fl2 & E2 & H1 & H2 & H3). exists g2, fl2. repeat split; [exact E2|exact H1|apply len_nonneg|exact H3].
  - cbn [app length]. fold L. lia.
Qed.
Lemma until_stop_quiet f fs rest : ubx_body f -> separated fs rest -> forall fuel l, quiet (on_wire f ++ rest) 0 l -> bytes l -> (length l < fuel)%nat ->
  exists gs, fst (until_stop fuel (flat l)) = gs ++ f :: fs.
Proof.
  intros Hbody Hsep. induction fuel as [|fuel IH]; intros l Hq Hb Hf; [lia|]. cbn [until_stop]. unfold read_frame. rewrite pending_flat.
  destruct (frame_quiet f rest Hbody (S (length l)) l Hq Hb ltac:(lia)) as (f' & l' & E & H).
  pose proof (frame_loop_pending (S (length l)) (flat l)) as P. rewrite pending_flat in P. specialize (P _ _ Hb E). cbv beta iota in P. rewrite pending_flat in P.
  destruct P as (_ & g0 & P).
  rewrite E. destruct H as [[-> ->]|[Hq' Hl']].
  - exists []. cbn [app]. pose proof (until_stop_separated fs rest fuel Hsep) as U.
    assert (length rest < fuel)%nat.
    { unfold on_wire in P. apply (f_equal (@length Z)) in P. rewrite !app_length in P. cbn [length] in P. lia. }
    destruct (until_stop fuel (flat rest)). cbn [fst] in *. rewrite U by lia. reflexivity.
  - assert (Hb' : bytes l') by (unfold bytes in *; rewrite P in Hb; rewrite !Forall_app in Hb; tauto).
    destruct (IH l' Hq' Hb' ltac:(lia)) as (gs & IHe). exists (f' :: gs).
    destruct (until_stop fuel (flat l')). cbn [fst] in *. now rewrite IHe.
Qed.
