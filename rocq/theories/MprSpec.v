(** Words for the statements about the files of weather regimes. *)
From Coq Require Import Reals Qreals.
From Verif Require Import PyBase EventSpec MprModel.
From Coq Require Import Ascii List.
Open Scope string_scope.

(** The words of a line, as every reader of such files separates them: maximal parts without blanks. *)
Fixpoint words (s : string) : list string :=
  match s with
  | "" => []
  | String c r =>
      if Ascii.eqb c " "%char then words r
      else match r with
           | "" => [String c ""]
           | String d _ => if Ascii.eqb d " "%char then String c "" :: words r
                           else match words r with [] => [String c ""] | w :: ws => String c w :: ws end
           end
  end.
(** A text without blanks that is not empty. *)
Fixpoint no_blank (s : string) : Prop := match s with "" => True | String c r => c <> " "%char /\ no_blank r end.
Definition Word (s : string) : Prop := s <> "" /\ no_blank s.

(** Entry of an array by season and day. *)
Definition Entry {A : Type} (l : list (list A)) (y d : nat) (x : A) : Prop := exists r, nth_error l y = Some r /\ nth_error r d = Some x.
(** An array of [n] rows of [m]. *)
Definition Shaped {A : Type} (n m : nat) (l : list (list A)) : Prop := length l = n /\ Forall (fun r => length r = m) l.
(** No file but [path] changes. *)
Definition Untouched (path : string) (w w' : disk) : Prop := forall p, p <> path -> w' p = w p.

(** ** Files of matched pairs *)
(** The columns of a matched pair line of MET, each with what belongs there: the texts, the forecast's and the observation's
    lead and valid time, the number of points, the number of this one and its place, and its two values. *)
Definition mpr_columns (fixed4 : option Q -> string) (t : texts) (lead_f valid_f lead_o valid_o total index : string)
  (lat lon f o : option Q) : list (string * string) :=
  [("VERSION", "V9.1"); ("MODEL", mname t); ("DESC", desc t);
   ("FCST_LEAD", lead_f); ("FCST_VALID_BEG", valid_f); ("FCST_VALID_END", valid_f);
   ("OBS_LEAD", lead_o); ("OBS_VALID_BEG", valid_o); ("OBS_VALID_END", valid_o);
   ("FCST_VAR", fvar t); ("FCST_UNITS", funit t); ("FCST_LEV", flev t); ("OBS_VAR", ovar t); ("OBS_UNITS", ounit t); ("OBS_LEV", olev t);
   ("OBTYPE", "ADPUPA"); ("VX_MASK", maskname t); ("INTERP_MTHD", "NEAREST"); ("INTERP_PNTS", "1");
   ("FCST_THRESH", "NA"); ("OBS_THRESH", "NA"); ("COV_THRESH", "NA"); ("ALPHA", "NA"); ("LINE_TYPE", "MPR");
   ("TOTAL", total); ("INDEX", index); ("OBS_SID", "NA"); ("OBS_LAT", fixed4 lat); ("OBS_LON", fixed4 lon); ("OBS_LVL", obslev t);
   ("OBS_ELV", "NA"); ("FCST", fixed4 f); ("OBS", fixed4 o); ("OBS_QC", "NA"); ("CLIMO_MEAN", "NA"); ("CLIMO_STDEV", "NA"); ("CLIMO_CDF", "NA")].
(** The texts of all columns are words. *)
Definition WordTexts (t : texts) : Prop :=
  Forall Word [mname t; desc t; fvar t; funit t; flev t; ovar t; ounit t; olev t; maskname t; obslev t].
(** Season [y], day [d] has a forecast, and this is the name of its file. *)
Definition FileOf (outfile : string) (forecast : times) (y d : nat) (name : string) : Prop := exists lead valid,
  Entry (leads forecast) y d lead /\ Entry (valids forecast) y d valid /\ valid <> "" /\
  name = outfile ++ "_" ++ lead ++ "L_" ++ substring 0 8 valid ++ "_" ++ substring 9 6 valid ++ "V.stat".
Definition Before (y d y' d' : nat) : Prop := (y < y' \/ y = y' /\ d < d')%nat.
(** Arrays of [ny] seasons of [nd] days, the values for [n] points. *)
Definition TimesShaped (ny nd : nat) (x : times) : Prop := Shaped ny nd (leads x) /\ Shaped ny nd (valids x).
Definition DataShaped {A : Type} (ny nd n : nat) (x : list (list (list A))) : Prop := Shaped ny nd x /\ Forall (Forall (fun p => length p = n)) x.

(** ** Leads *)
(** Hours, minutes and seconds, each with two digits at least. *)
Definition LeadText (d : Z) (s : string) : Prop := exists kh h m sec th tm ts,
  s = th ++ tm ++ ts /\ (d = 3600 * h + 60 * m + sec /\ 0 <= m < 60 /\ 0 <= sec < 60)%Z /\
  (2 <= kh)%nat /\ Digits kh th /\ decimal th = h /\ Digits 2 tm /\ decimal tm = m /\ Digits 2 ts /\ decimal ts = sec.
(** A file with this grid that opens, with its times. *)
Definition GoodFile (open_nc : string -> res nc_var) (seconds : string -> res Z) (n m : nat) (file : string) : Prop := exists v tv ti,
  open_nc file = Ok v /\ seconds (nc_valid v) = Ok tv /\ seconds (nc_init v) = Ok ti /\ Shaped n m (nc_grid v).

(** ** The elbow *)
(** How far the point of index [i] of the curve lies below the straight line from its first to its last point. *)
Definition Depth (s : list Q) (i : nat) (x : Q) : Prop := exists a b v,
  nth_error s 0 = Some a /\ nth_error s (length s - 1) = Some b /\ nth_error s i = Some v /\
  x == a + (b - a) * inject_Z (Z.of_nat i) / inject_Z (Z.of_nat (length s - 1)) - v.

(** ** Files of regimes *)
(** A valid time: year, month and day, then a time of day. *)
Definition ValidTime (vt year month day : string) : Prop := exists rest,
  vt = year ++ month ++ day ++ rest /\ String.length year = 4%nat /\ String.length month = 2%nat /\ String.length day = 2%nat /\
  Word year /\ Word month /\ Word day.
