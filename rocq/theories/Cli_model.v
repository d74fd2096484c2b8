(** The command line of rtcm3tosbp: c/rtcm3tosbp/src/rtcm3tosbp.c:136-336.  POSIX getopt, strtok and sscanf are modelled as the standards
    describe them; the text of a number is read by [read_pair] (sscanf "%d:%f"; None: fewer than two conversions), dates and weeks by [date_ok].
    The arrays the options set are those of options.c:21-25. *)
From Coq Require Import String Ascii.
From Flocq Require Import IEEE754.Binary IEEE754.Bits.
From Verif Require Import Base RtcmMsm_model Esf_model.
Open Scope string_scope.
Open Scope list_scope.
Open Scope Z_scope.

(** the option string "hb:c:l:tw:d:soGRECJS:v" (rtcm3tosbp.c:150): Some true: takes a value *)
Definition takes_value (c : ascii) : option bool :=
  if existsb (Ascii.eqb c) ["b"; "c"; "l"; "w"; "d"; "S"]%char then Some true
  else if existsb (Ascii.eqb c) ["h"; "t"; "s"; "o"; "G"; "R"; "E"; "C"; "J"; "v"]%char then Some false else None.
(** what getopt returns: a letter with its value, or '?' *)
Inductive event := Opt (c : ascii) (v : option string) | Bad.
(** the letters of one word after '-'; the letter still waiting for a value *)
Fixpoint letters (s : string) : list event * option ascii :=
  match s with
  | EmptyString => ([], None)
  | String c s' => match takes_value c with
      | None => let '(e, p) := letters s' in (Bad :: e, p)
      | Some false => let '(e, p) := letters s' in (Opt c None :: e, p)
      | Some true => match s' with EmptyString => ([], Some c) | _ => ([Opt c (Some s')], None) end
      end
  end.
(** getopt over the words of the command line; words that are no options are skipped (GNU) *)
Fixpoint getopt (pending : option ascii) (ws : list string) : list event :=
  match ws with
  | [] => match pending with Some _ => [Bad] | None => [] end
  | w :: ws => match pending with
      | Some c => Opt c (Some w) :: getopt None ws
      | None => if String.eqb w "--" then []
                else match w with
                | String c s => if Ascii.eqb c "-" && negb (String.eqb s "") then let '(e, p) := letters s in e ++ getopt p ws else getopt None ws
                | EmptyString => getopt None ws
                end
      end
  end.
(** strtok(arg, ","): the maximal runs without commas *)
Fixpoint tokens (cur s : string) : list string :=
  match s with
  | EmptyString => if String.eqb cur "" then [] else [cur]
  | String c s => if Ascii.eqb c "," then (if String.eqb cur "" then tokens "" s else cur :: tokens "" s) else tokens (cur ++ String c "")%string s
  end.

Section Cli.
Variable read_pair : string -> option (Z * binary32).
Variable date_ok : ascii -> string -> bool.
(** CODE_COUNT, CODE_GLO_L1OF, CODE_GLO_L2OF of libswiftnav *)
Variables CODE_COUNT L1OF L2OF : Z.

Record cfg := mkcfg { g_signal : list binary32; g_code : bool -> binary32; g_phase : bool -> binary32; g_masked : cons -> bool; g_obs_time : bool }.
(** the program goes on with a configuration, ends, or has written outside an array *)
Inductive outcome := Go (g : cfg) | Exit | Broken.

(** parse_biases: rtcm3tosbp.c:268-283; None: written outside sbp_signal_biases *)
Fixpoint parse_biases (ts : list string) (a : list binary32) : option (list binary32) :=
  match ts with
  | [] => Some a
  | t :: ts => match read_pair t with
      | None => Some a
      | Some (k, x) => if k >=? CODE_COUNT then Some a else if k <? 0 then None else parse_biases ts (zupd k (fun _ => x) a)
      end
  end.
(** parse_glonass_code_biases, parse_glonass_phase_biases: rtcm3tosbp.c:285-336 *)
Fixpoint parse_glonass (ts : list string) (a : bool -> binary32) : bool -> binary32 :=
  match ts with
  | [] => a
  | t :: ts => match read_pair t with
      | None => a
      | Some (k, x) => parse_glonass ts (if k =? L1OF then (fun l2 => if l2 then a true else x) else if k =? L2OF then (fun l2 => if l2 then x else a false) else a)
      end
  end.
(** rtcm3tosbp.c:151-153 *)
Definition value (v : option string) : string := match v with Some (String c s) => if Ascii.eqb c "=" then s else String c s | _ => "" end.
Definition mask (g : cfg) (c : cons) : cfg := mkcfg (g_signal g) (g_code g) (g_phase g) (fun x => cons_eqb x c || g_masked g x) (g_obs_time g).
(** the switch: rtcm3tosbp.c:154-231 *)
Definition apply (g : cfg) (e : event) : outcome :=
  match e with
  | Bad => Go g
  | Opt c v =>
      if Ascii.eqb c "h" || Ascii.eqb c "t" then Exit
      else if Ascii.eqb c "b" then match parse_biases (tokens "" (value v)) (g_signal g) with Some a => Go (mkcfg a (g_code g) (g_phase g) (g_masked g) (g_obs_time g)) | None => Broken end
      else if Ascii.eqb c "c" then Go (mkcfg (g_signal g) (parse_glonass (tokens "" (value v)) (g_code g)) (g_phase g) (g_masked g) (g_obs_time g))
      else if Ascii.eqb c "l" then Go (mkcfg (g_signal g) (g_code g) (parse_glonass (tokens "" (value v)) (g_phase g)) (g_masked g) (g_obs_time g))
      else if Ascii.eqb c "w" || Ascii.eqb c "d" then if date_ok c (value v) then Go g else Exit
      else if Ascii.eqb c "o" then Go (mkcfg (g_signal g) (g_code g) (g_phase g) (g_masked g) true)
      else if Ascii.eqb c "G" then Go (mask g cGPS)
      else if Ascii.eqb c "R" then Go (mask g cGLO)
      else if Ascii.eqb c "E" then Go (mask g cGAL)
      else if Ascii.eqb c "C" then Go (mask g cBDS)
      else if Ascii.eqb c "J" then Go (mask g cQZS)
      else if Ascii.eqb c "S" then Go (mask g cSBAS)
      else Go g
  end.
Fixpoint apply_all (g : cfg) (es : list event) : outcome :=
  match es with [] => Go g | e :: es => match apply g e with Go g => apply_all g es | r => r end end.
(** all biases 0, nothing masked: options.c:21-24 *)
Definition default : cfg := mkcfg (repeat (fofZ 0 0) (Z.to_nat CODE_COUNT)) (fun _ => fofZ 0 0) (fun _ => fofZ 0 0) (fun _ => false) false.
(** the option loop of rtcm3tosbp_main on the words after the program name *)
Definition command_line (ws : list string) : outcome := apply_all default (getopt None ws).
End Cli.
