(** C79: the options of rtcm3tosbp take effect as its help text says. *)
From Coq Require Import String Ascii.
From Flocq Require Import IEEE754.Binary IEEE754.Bits.
From Verif Require Import Base RtcmMsm_model Esf_model Signals_proofs Cli_model.
Open Scope string_scope.
Open Scope list_scope.
Open Scope Z_scope.

(** ** Specification: a command line as a list of options *)
(** how the value of an option is written: "-b v", "-bv" or "-b=v" *)
Inductive style := Separate | Attached | Equals.
Inductive arg := Flag (c : ascii) | Biases (kind : ascii) (st : style) (l : list string).
Definition joined (l : list string) : string := String.concat "," l.
Definition words (a : arg) : list string :=
  match a with
  | Flag c => [String "-" (String c "")]
  | Biases k Separate l => [String "-" (String k ""); joined l]
  | Biases k Attached l => [String "-" (String k (joined l))]
  | Biases k Equals l => [String "-" (String k (String "=" (joined l)))]
  end.
(** the letter that disables a constellation (help text) *)
Definition letter_of (c : cons) : ascii :=
  match c with cGPS => "G" | cGLO => "R" | cGAL => "E" | cBDS => "C" | cQZS => "J" | cSBAS => "S" | cINVALID => "?" end.
Fixpoint has_comma (s : string) : bool := match s with EmptyString => false | String c s => Ascii.eqb c "," || has_comma s end.
(** the last bias given for signal [k] is [x]; 0 if none is given *)
Definition chosen (l : list (Z * binary32)) (k : Z) (x : binary32) : Prop :=
  (exists l1 l2, l = l1 ++ (k, x) :: l2 /\ ~ In k (map fst l2)) \/ (~ In k (map fst l) /\ x = fofZ 0 0).

Section Cli.
Variable read_pair : string -> option (Z * binary32).
Variable date_ok : ascii -> string -> bool.
Variables CODE_COUNT L1OF L2OF : Z.
Hypothesis L12 : L1OF <> L2OF.
Hypothesis CNT : 0 <= CODE_COUNT.
(** a text "code:bias": no comma, not empty, not beginning with "=" *)
Definition token_ok (t : string) : Prop := t <> "" /\ has_comma t = false /\ (forall s, t <> String "=" s) /\ exists k x, read_pair t = Some (k, x).
Definition arg_ok (a : arg) : Prop :=
  match a with
  | Flag c => In c ["G"; "R"; "E"; "C"; "J"; "s"; "o"; "v"]%char
  | Biases kind _ l => In kind ["b"; "c"; "l"]%char /\ l <> [] /\ Forall token_ok l /\
      (kind = "b"%char -> forall t k x, In t l -> read_pair t = Some (k, x) -> 0 <= k < CODE_COUNT)
  end.
Definition pair_of (t : string) : list (Z * binary32) := match read_pair t with Some p => [p] | None => [] end.
Definition pairs (kind : ascii) (args : list arg) : list (Z * binary32) :=
  flat_map (fun a => match a with Biases k _ l => if Ascii.eqb k kind then flat_map pair_of l else [] | Flag _ => [] end) args.
Definition as_asked (args : list arg) (g : cfg) : Prop :=
  len (g_signal g) = CODE_COUNT /\ (forall k, 0 <= k < CODE_COUNT -> chosen (pairs "b" args) k (znth (fofZ 0 0) k (g_signal g))) /\
  (chosen (pairs "c" args) L1OF (g_code g false) /\ chosen (pairs "c" args) L2OF (g_code g true)) /\
  (chosen (pairs "l" args) L1OF (g_phase g false) /\ chosen (pairs "l" args) L2OF (g_phase g true)) /\
  (forall c, g_masked g c = true <-> In (Flag (letter_of c)) args) /\
  (g_obs_time g = true <-> In (Flag "o") args).

(** ** Proof *)
Definition event_of (a : arg) : event :=
  match a with Flag c => Opt c None | Biases k Equals l => Opt k (Some (String "=" (joined l))) | Biases k _ l => Opt k (Some (joined l)) end.
Lemma joined_head t l : exists r, joined (t :: l) = (t ++ r)%string.
Proof. unfold joined. destruct l; [exists ""; cbn; clear; induction t; cbn; congruence|]. cbn. eexists. reflexivity. Qed.
Lemma joined_shape l : l <> [] -> Forall token_ok l -> exists c s, joined l = String c s /\ c <> "="%char.
Proof.
  destruct l as [|t l]; [congruence|]. intros _ F. inversion F as [|? ? (N & _ & E & _) _]. destruct (joined_head t l) as [r ->]. destruct t as [|c t]; [congruence|].
  exists c, (t ++ r)%string. split; [reflexivity|]. intros ->. exact (E t eq_refl).
Qed.
Lemma getopt_arg a ws : arg_ok a -> getopt None (words a ++ ws) = event_of a :: getopt None ws.
Proof.
  destruct a as [c|k st l]; intros H.
  - cbn in H. repeat (destruct H as [<-|H]; [reflexivity|]). contradiction.
  - destruct H as (K & N & F & _). destruct (joined_shape l N F) as (c & s & E & _). cbn in K.
    destruct st; cbn [words event_of app]; rewrite E; repeat (destruct K as [<-|K]; [reflexivity|]); contradiction.
Qed.
Lemma getopt_all args : Forall arg_ok args -> getopt None (flat_map words args) = map event_of args.
Proof. induction 1 as [|a args Ha _ IH]; [reflexivity|]. cbn [flat_map map]. rewrite getopt_arg, IH by exact Ha. reflexivity. Qed.

Lemma app_assoc_s a b c : ((a ++ b) ++ c = a ++ (b ++ c))%string. Proof. induction a; cbn; congruence. Qed.
Lemma app_nil_s a : (a ++ "" = a)%string. Proof. induction a; cbn; congruence. Qed.
Lemma tokens_run t : has_comma t = false -> forall cur r, tokens cur (t ++ r) = tokens (cur ++ t) r.
Proof.
  induction t as [|c t IH]; intros H cur r; [cbn; rewrite app_nil_s; reflexivity|]. cbn in H. apply orb_false_iff in H as [H1 H2]. cbn [append tokens]. rewrite H1.
  rewrite IH by exact H2. rewrite app_assoc_s. reflexivity.
Qed.
Lemma tokens_joined l : Forall token_ok l -> tokens "" (joined l) = l.
Proof.
  induction 1 as [|t l (N & C & _) F IH]; [reflexivity|]. unfold joined in *. destruct l as [|t' l].
  - change (String.concat "," [t]) with t. transitivity (tokens "" (t ++ "")%string); [rewrite app_nil_s; reflexivity|]. rewrite tokens_run by exact C. cbn. destruct (String.eqb_spec t ""); [congruence|reflexivity].
  - change (String.concat "," (t :: t' :: l)) with (t ++ ("," ++ String.concat "," (t' :: l)))%string. rewrite tokens_run by exact C. cbn [append tokens]. change (Ascii.eqb "," ",") with true. cbv iota.
    destruct (String.eqb_spec t ""); [congruence|]. rewrite IH. reflexivity.
Qed.
Lemma value_event kind st l : l <> [] -> Forall token_ok l -> exists v, event_of (Biases kind st l) = Opt kind (Some v) /\ value (Some v) = joined l.
Proof.
  intros N F. destruct (joined_shape l N F) as (c & s & E & NE). destruct st; cbn [event_of]; (eexists; split; [reflexivity|]); cbn [value]; rewrite ?E; cbn [value];
    try (apply Ascii.eqb_neq in NE; rewrite NE); reflexivity.
Qed.
Lemma chosen_snoc l k x k' x' : chosen l k x -> chosen (l ++ [(k', x')]) k (if k =? k' then x' else x).
Proof.
  intros H. destruct (Z.eqb_spec k k') as [->|N]; [left; exists l, []; split; [reflexivity|intros []]|].
  destruct H as [(l1 & l2 & -> & Q)|[Q ->]].
  - left. exists l1, (l2 ++ [(k', x')]). split; [rewrite <- app_assoc; reflexivity|]. rewrite map_app, in_app_iff. cbn. intros [H|[H|[]]]; [contradiction|congruence].
  - right. split; [|reflexivity]. rewrite map_app, in_app_iff. cbn. intros [H|[H|[]]]; [contradiction|congruence].
Qed.
Lemma signal_step ts : Forall token_ok ts -> (forall t k x, In t ts -> read_pair t = Some (k, x) -> 0 <= k < CODE_COUNT) -> forall l a,
  len a = CODE_COUNT -> (forall k, 0 <= k < CODE_COUNT -> chosen l k (znth (fofZ 0 0) k a)) ->
  exists a', parse_biases read_pair CODE_COUNT ts a = Some a' /\ len a' = CODE_COUNT /\ forall k, 0 <= k < CODE_COUNT -> chosen (l ++ flat_map pair_of ts) k (znth (fofZ 0 0) k a').
Proof.
  induction 1 as [|t ts (_ & _ & _ & k & x & R) F IH]; intros B l a L C.
  - exists a. split; [reflexivity|]. split; [exact L|]. cbn. rewrite app_nil_r. exact C.
  - cbn [parse_biases]. rewrite R. pose proof (B t k x (or_introl eq_refl) R) as Bk. replace (k >=? CODE_COUNT) with false by lia. replace (k <? 0) with false by lia.
    destruct (IH (fun t' k' x' I => B t' k' x' (or_intror I)) (l ++ [(k, x)]) (zupd k (fun _ => x) a)) as (a' & E & L' & C').
    + rewrite len_zupd. exact L.
    + intros k' Hk'. specialize (C k' Hk'). apply (chosen_snoc _ _ _ k x) in C. destruct (Z.eqb_spec k' k) as [Q|Q].
      * rewrite Q. rewrite znth_zupd_eq by lia. rewrite Q in C. exact C.
      * rewrite znth_zupd_neq by lia. exact C.
    + exists a'. split; [exact E|]. split; [exact L'|]. intros k' Hk'. specialize (C' k' Hk'). rewrite <- app_assoc in C'. cbn [flat_map]. unfold pair_of at 1. rewrite R. exact C'.
Qed.
Lemma glonass_step ts : Forall token_ok ts -> forall l a, chosen l L1OF (a false) /\ chosen l L2OF (a true) ->
  chosen (l ++ flat_map pair_of ts) L1OF (parse_glonass read_pair L1OF L2OF ts a false) /\ chosen (l ++ flat_map pair_of ts) L2OF (parse_glonass read_pair L1OF L2OF ts a true).
Proof.
  induction 1 as [|t ts (_ & _ & _ & k & x & R) F IH]; intros l a C; [cbn; rewrite app_nil_r; exact C|]. cbn [parse_glonass flat_map]. unfold pair_of at 1 3. rewrite R.
  rewrite (app_assoc l). apply IH. destruct C as [C1 C2]. apply (chosen_snoc _ _ _ k x) in C1. apply (chosen_snoc _ _ _ k x) in C2. rewrite (Z.eqb_sym _ k) in C1. rewrite (Z.eqb_sym _ k) in C2.
  destruct (Z.eqb_spec k L1OF) as [->|N1]; [replace (L1OF =? L2OF) with false in C2 by lia; split; assumption|]. destruct (Z.eqb_spec k L2OF); split; assumption.
Qed.
Lemma pairs_snoc kind args a : pairs kind (args ++ [a]) = pairs kind args ++ match a with Biases k _ l => if Ascii.eqb k kind then flat_map pair_of l else [] | Flag _ => [] end.
Proof. unfold pairs. rewrite flat_map_app. cbn. rewrite app_nil_r. reflexivity. Qed.
Lemma in_snoc (x a : arg) l : In x (l ++ [a]) <-> In x l \/ a = x. Proof. rewrite in_app_iff. cbn. tauto. Qed.
Lemma step args g a : as_asked args g -> arg_ok a -> exists g', apply read_pair date_ok CODE_COUNT L1OF L2OF g (event_of a) = Go g' /\ as_asked (args ++ [a]) g'.
Proof.
  intros (A1 & A2 & A3 & A4 & A5 & A6) H. destruct a as [c|kind st l].
  - assert (S : forall g', g_signal g' = g_signal g -> g_code g' = g_code g -> g_phase g' = g_phase g ->
       (forall x, g_masked g' x = true <-> In (Flag (letter_of x)) (args ++ [Flag c])) -> (g_obs_time g' = true <-> In (Flag "o") (args ++ [Flag c])) -> as_asked (args ++ [Flag c]) g').
    { intros g' E1 E2 E3 E4 E5. unfold as_asked. rewrite !pairs_snoc, !app_nil_r, E1, E2, E3. split; [exact A1|]. split; [exact A2|]. split; [exact A3|]. split; [exact A4|]. split; assumption. }
    cbn [event_of]. cbn in H.
    repeat (destruct H as [<-|H];
      [eexists; split; [reflexivity|]; apply S; try reflexivity;
        [intros x; rewrite in_snoc, <- A5; try (unfold mask; cbn [g_masked]; rewrite orb_true_iff, cons_eqb_spec); destruct x; cbn [letter_of]; split; intuition (try discriminate; try congruence)
        |rewrite in_snoc, <- A6; cbn [g_obs_time mask]; split; intuition (try discriminate; try congruence)]|]).
    contradiction.
  - destruct H as (K & N & F & B). destruct (value_event kind st l N F) as (v & EV & VV).
    assert (X1 : forall x, g_masked g x = true <-> In (Flag (letter_of x)) (args ++ [Biases kind st l])) by (intros x; rewrite in_snoc, <- A5; intuition discriminate).
    assert (X2 : g_obs_time g = true <-> In (Flag "o") (args ++ [Biases kind st l])) by (rewrite in_snoc, <- A6; intuition discriminate).
    rewrite EV. unfold apply. rewrite VV, tokens_joined by exact F. cbn in K. destruct K as [<-|[<-|[<-|[]]]]; cbn [Ascii.eqb Bool.eqb orb andb].
    + destruct (signal_step l F (B eq_refl) _ _ A1 A2) as (a' & E & L' & C'). rewrite E. eexists. split; [reflexivity|]. unfold as_asked. rewrite !pairs_snoc. cbn -[chosen]. rewrite !app_nil_r.
      split; [exact L'|]. split; [exact C'|]. split; [exact A3|]. split; [exact A4|]. split; assumption.
    + eexists. split; [reflexivity|]. unfold as_asked. rewrite !pairs_snoc. cbn -[chosen]. rewrite !app_nil_r.
      split; [exact A1|]. split; [exact A2|]. split; [exact (glonass_step l F _ _ A3)|]. split; [exact A4|]. split; assumption.
    + eexists. split; [reflexivity|]. unfold as_asked. rewrite !pairs_snoc. cbn -[chosen]. rewrite !app_nil_r.
      split; [exact A1|]. split; [exact A2|]. split; [exact A3|]. split; [exact (glonass_step l F _ _ A4)|]. split; assumption.
Qed.
(** Every command line made of the options -G -R -E -C -J -s -o -v and of bias lists -b -c -l, in any number and order and with the values written
    in any of the three ways, is accepted, and sets exactly the biases and masks it names. *)
Theorem C79_options_partial : forall args, Forall arg_ok args ->
  exists g, command_line read_pair date_ok CODE_COUNT L1OF L2OF (flat_map words args) = Go g /\ as_asked args g.
Proof.
  intros args H. unfold command_line. rewrite getopt_all by exact H.
  assert (D : as_asked [] (default CODE_COUNT)).
  { unfold as_asked, default. cbn [g_signal g_code g_phase g_masked g_obs_time]. split; [unfold len; rewrite repeat_length; lia|].
    assert (Z0 : forall k, chosen [] k (fofZ 0 0)) by (intros k; right; split; [intros []|reflexivity]).
    split; [intros k Hk; unfold znth; rewrite nth_repeat; apply Z0|]. split; [split; apply Z0|]. split; [split; apply Z0|]. split; [intros c|]; split; [discriminate|intros []|discriminate|intros []]. }
  revert D. change args with ([] ++ args) at 2. generalize (@nil arg). generalize (default CODE_COUNT). induction H as [|a args Ha _ IH]; intros g done D.
  - exists g. split; [reflexivity|]. rewrite app_nil_r. exact D.
  - destruct (step _ _ _ D Ha) as (g' & E & D'). destruct (IH g' (done ++ [a]) D') as (g2 & E2 & D2). exists g2. cbn [map apply_all]. rewrite E. split; [exact E2|]. rewrite <- app_assoc in D2. exact D2.
Qed.
End Cli.

(** ** Example *)
Definition digit (c : ascii) : option Z := let n := Z.of_nat (nat_of_ascii c) in if (48 <=? n) && (n <=? 57) then Some (n - 48) else None.
Definition ex_read (s : string) : option (Z * binary32) :=
  match s with
  | String k (String ":" (String x "")) => match digit k, digit x with Some k, Some x => Some (k, fofZ x 0) | _, _ => None end
  | String "-" (String k (String ":" (String x ""))) => match digit k, digit x with Some k, Some x => Some (- k, fofZ x 0) | _, _ => None end
  | _ => None
  end.
Definition ex_args : list arg := [Biases "b" Separate ["0:3"; "1:2"; "0:4"]; Flag "G"; Biases "c" Equals ["3:1"]; Biases "b" Attached ["1:5"]; Flag "E"; Flag "o"].
Example C79_nonvacuous : Forall (arg_ok ex_read 60) ex_args /\ flat_map words ex_args = ["-b"; "0:3,1:2,0:4"; "-G"; "-c=3:1"; "-b1:5"; "-E"; "-o"] /\
  pairs ex_read "b" ex_args = [(0, fofZ 3 0); (1, fofZ 2 0); (0, fofZ 4 0); (1, fofZ 5 0)].
Proof.
  assert (T : forall a b, In (a, b) [("0", "3"); ("1", "2"); ("0", "4"); ("3", "1"); ("1", "5")]%char -> token_ok ex_read (String a (String ":" (String b "")))).
  { intros a b H. cbn in H. unfold token_ok. repeat (destruct H as [[= <- <-]|H]; [split; [discriminate|split; [reflexivity|split; [discriminate|eexists; eexists; cbn; reflexivity]]]|]). contradiction. }
  split; [|split; reflexivity]. unfold ex_args.
  repeat (apply Forall_cons; [|]); [| | | | | |apply Forall_nil]; cbn [arg_ok]; try (cbn; tauto);
    (split; [cbn; tauto|split; [discriminate|split; [repeat (apply Forall_cons; [apply T; cbn; tauto|]); apply Forall_nil|]]]); try (intros X; discriminate X);
    intros _ t k x I; cbn in I; repeat (destruct I as [<-|I]; [cbn; intros [= <- _]; lia|]); contradiction.
Qed.

(** ** Where the property fails *)
(** "-S" (disable SBAS), documented as a flag, is declared with a value: given last it is refused and SBAS is not disabled, ... *)
Theorem C79_sbas_last_refuted : forall rd ok n l1 l2, exists g, command_line rd ok n l1 l2 ["-S"] = Go g /\ g_masked g cSBAS = false.
Proof. intros. eexists. split; reflexivity. Qed.
(** ... and given before another option it takes that option as its value: here GPS is not disabled *)
Theorem C79_sbas_swallows_refuted : forall rd ok n l1 l2, exists g, command_line rd ok n l1 l2 ["-S"; "-G"] = Go g /\ g_masked g cSBAS = true /\ g_masked g cGPS = false.
Proof. intros. eexists. split; [reflexivity|split; reflexivity]. Qed.
(** a negative signal number writes before the beginning of the array *)
Theorem C79_negative_code_refuted : forall rd ok n l1 l2 x, 0 <= n -> rd "-1:3" = Some (-1, x) -> command_line rd ok n l1 l2 ["-b"; "-1:3"] = Broken.
Proof.
  intros rd ok n l1 l2 x N R. unfold command_line. change (getopt None ["-b"; "-1:3"]) with [Opt "b" (Some "-1:3")]. cbn [apply_all apply Ascii.eqb Bool.eqb orb andb].
  change (tokens "" (value (Some "-1:3"))) with ["-1:3"]. unfold parse_biases. rewrite R. replace (-1 >=? n) with false by lia. reflexivity.
Qed.
(** an unreadable entry silently cancels all entries after it *)
Theorem C79_rest_ignored_refuted : forall rd ok n l1 l2, rd "x" = None -> exists g, command_line rd ok n l1 l2 ["-b"; "x,0:3"] = Go g /\ g_signal g = g_signal (default n).
Proof.
  intros rd ok n l1 l2 R. eexists. split; [|shelve]. unfold command_line. change (getopt None ["-b"; "x,0:3"]) with [Opt "b" (Some "x,0:3")]. cbn [apply_all apply Ascii.eqb Bool.eqb orb andb].
  change (tokens "" (value (Some "x,0:3"))) with ["x"; "0:3"]. cbn [parse_biases]. rewrite R. reflexivity.
  Unshelve. reflexivity.
Qed.
Print Assumptions C79_options_partial.
Print Assumptions C79_nonvacuous.
Print Assumptions C79_sbas_last_refuted.
Print Assumptions C79_sbas_swallows_refuted.
Print Assumptions C79_negative_code_refuted.
Print Assumptions C79_rest_ignored_refuted.
