(** Words for the statements about settings. *)
From Coq Require Import List ZArith String Ascii.
From Verif Require Import PyBase.
Import ListNotations.
Open Scope string_scope.
Open Scope Z_scope.

(** Digits of a decimal number, with single underscores between them: "12", "1_200". *)
Definition Decimals : list ascii := ["0"; "1"; "2"; "3"; "4"; "5"; "6"; "7"; "8"; "9"]%char.
Inductive Digits : list ascii -> Z -> Prop :=
| FirstDigit : forall c k, nth_error Decimals k = Some c -> Digits [c] (Z.of_nat k)
| NextDigit : forall l v c k, Digits l v -> nth_error Decimals k = Some c -> Digits (l ++ [c]) (10 * v + Z.of_nat k)
| AfterUnderscore : forall l v c k, Digits l v -> nth_error Decimals k = Some c -> Digits (l ++ ["_"%char; c]) (10 * v + Z.of_nat k).
(** Spaces, tabs and line ends. *)
Definition Blank (c : ascii) : Prop := In (nat_of_ascii c) [9; 10; 11; 12; 13; 32]%nat.
(** A text that spells a whole number: "15", " -5", "+1_000 ". *)
Definition Spells (text : string) (z : Z) : Prop :=
  exists before sign digits after v, list_ascii_of_string text = (before ++ sign ++ digits ++ after)%list /\
    Forall Blank before /\ Forall Blank after /\ Digits digits v /\
    ((sign = [] /\ z = v) \/ (sign = ["+"%char] /\ z = v) \/ (sign = ["-"%char] /\ z = - v)).

(** What a setting is: the variable if it is set, or the default. *)
Definition TextSetting (environ : string -> option string) (name default v : string) : Prop :=
  environ name = Some v \/ (environ name = None /\ v = default).
Definition NumberSetting (environ : string -> option string) (name : string) (default z : Z) : Prop :=
  (exists text, environ name = Some text /\ Spells text z) \/ (environ name = None /\ z = default).
(** The parts of a text between separators. *)
Definition PartsBy (sep : ascii) (text : string) (parts : list string) : Prop :=
  parts <> [] /\ text = String.concat (String sep "") parts /\ Forall (fun p => ~ In sep (list_ascii_of_string p)) parts.
(** Numbers with commas between them. *)
Definition NumbersSetting (environ : string -> option string) (name default : string) (zs : list Z) : Prop :=
  exists text parts, TextSetting environ name default text /\ PartsBy "," text parts /\ Forall2 Spells parts zs.

(** The names of the settings that carry a label, without it. *)
Definition labelled : list string :=
  ["_BLOCKING_ANOMALY_VAR"; "_BLOCKING_VAR"; "_SMOOTHING_PTS"; "_LAT_DELTA"; "_NORTH_SOUTH_LIMITS"; "_IBL_DIST"; "_IBL_IN_GIBL";
   "_GIBL_OVERLAP"; "_BLOCK_TIME"; "_BLOCK_TRAVEL"; "_BLOCK_METHOD";
   "_WR_NUMBER"; "_NUM_CLUSTERS"; "_NUM_PCS"; "_WR_FREQ"; "_WR_OUTPUT_FILE_TYPE"; "_WR_OUTPUT_FILE"].
(** The settings of whole numbers, with their defaults. *)
Definition blocking_numbers : list (string * Z) :=
  [("_SMOOTHING_PTS", 9); ("_NORTH_SOUTH_LIMITS", 30); ("_IBL_DIST", 7); ("_IBL_IN_GIBL", 15); ("_GIBL_OVERLAP", 10); ("_BLOCK_TIME", 5);
   ("_BLOCK_TRAVEL", 45)].
Definition regime_numbers : list (string * Z) :=
  [("_WR_NUMBER", 6); ("_NUM_CLUSTERS", 20); ("_NUM_PCS", 10); ("_WR_FREQ", 7)].
