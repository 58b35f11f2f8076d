(** Terms of the statements C135 to C139. *)
From Verif Require Import PyBase ValModel.
From Coq Require Import String Ascii List.
Import ListNotations.
Open Scope string_scope.
Open Scope Z_scope.

(** A text without a character. *)
Definition Without (c : ascii) (s : string) : Prop := forall a b, s <> a ++ String c b.
(** The value of a key: that of its first entry; no value. *)
Definition Maps {V : Type} (m : list (string * V)) (k : string) (v : V) : Prop :=
  exists a b, m = (a ++ (k, v) :: b)%list /\ ~ In k (map fst a).
Definition Absent {V : Type} (m : list (string * V)) (k : string) : Prop := ~ In k (map fst m).
(** Two disks have the same at a path. *)
Definition SameAt (w w' : disk) (p : string) : Prop := (forall f, Maps w p f <-> Maps w' p f) /\ (Absent w p <-> Absent w' p).
(** The path of a directory ends with a slash; a file in it, not deeper. *)
Definition Slash (d : string) : Prop := exists s, d = s ++ "/".
Definition InDir (d p : string) : Prop := exists name, p = d ++ name /\ name <> "" /\ Without "/" name.
(** Exactly the paths of a kind have been removed; a file has been written. *)
Definition Removed (gone : string -> Prop) (w w' : disk) : Prop := forall p, (gone p -> Absent w' p) /\ (~ gone p -> SameAt w w' p).
Definition Put (p : string) (f : file) (w w' : disk) : Prop := Maps w' p f /\ forall q, q <> p -> SameAt w w' q.
(** The part of a name before the first dot. *)
Definition StemOf (name stem : string) : Prop := Without "." stem /\ (name = stem \/ exists ext, name = stem ++ "." ++ ext).
(** Files of a directory whose names start with a text; those that start with a dot only if the text says so. *)
Definition Similar (d stem p : string) : Prop := exists rest, p = d ++ stem ++ rest /\ Without "/" rest /\
  (stem = "" -> exists c s, rest = String c s /\ c <> "."%char).
(** No character that is special in a pattern. *)
Definition Plain (s : string) : Prop := Without "*" s /\ Without "?" s /\ Without "[" s.
(** The name of an XML file: something that is not only dots, and the extension. *)
Definition XmlName (name : string) : Prop := exists a c b, name = a ++ String c b ++ ".xml" /\ c <> "."%char.
(** The first and the last day of the period. *)
Definition FirstDay (day_of : string -> res Z) (now : Z) (P : params) (d : Z) : Prop :=
  (exists t, Maps P "start_date" t /\ day_of t = Ok d) \/ (Absent P "start_date" /\ d = now - 1).
Definition LastDay (day_of : string -> res Z) (now : Z) (P : params) (d : Z) : Prop :=
  (exists t, Maps P "end_date" t /\ day_of t = Ok d) \/ (Absent P "end_date" /\ d = now).

(** The new document: the named values are changed, all others are as before. *)
Definition Rewritten (changes : list (string * string)) (doc doc' : list (string * option string)) : Prop :=
  forall t v, Maps doc' t v <-> (exists x, Maps changes t x /\ v = Some x) \/ (Absent changes t /\ Maps doc t v).
(** An image that can, and one that cannot be read. *)
Definition Reads (decode : body -> option (list Z)) (w : disk) (p : string) (a : list Z) : Prop :=
  exists f, Maps w p f /\ decode (content f) = Some a.
Definition Unreadable (decode : body -> option (list Z)) (w : disk) (p : string) : Prop :=
  Absent w p \/ exists f, Maps w p f /\ decode (content f) = None.
(** The image of the places where two images differ: white below or at the level, else black. *)
Definition Threshold (level : Z) (grad image : list Z) : Prop :=
  Forall2 (fun g x => (g <= level -> x = 255) /\ (level < g -> x = 0)) grad image.
(** What is removed for a plot that is as it was. *)
Definition Tidied (image : bool) (plot new_xml new_image scripts data : string) (w w' : disk) : Prop :=
  exists stem, StemOf plot stem /\
  Removed (fun p => p = new_xml \/ (image = true /\ p = new_image) \/ Similar scripts stem p \/ Similar data stem p) w w'.
(** The verdict about a plot, from the disk after the plot has been made. *)
Inductive Judged (gray : list Z -> list Z) (similarity : list Z -> list Z -> res (Q * list Z)) (otsu : list Z -> Z)
  (decode : body -> option (list Z)) (day : Z) (plot original new_xml new_image thresh_image scripts data : string) (w : disk)
  : disk -> res (string * verdict) -> Prop :=
| JudgedAbsent w' : Absent w original -> Absent w new_image -> Tidied false plot new_xml new_image scripts data w w' ->
    Judged gray similarity otsu decode day plot original new_xml new_image thresh_image scripts data w w' (Ok (plot, BothAbsent))
| JudgedProblem : ~ (Absent w original /\ Absent w new_image) -> Unreadable decode w original \/ Unreadable decode w new_image ->
    Judged gray similarity otsu decode day plot original new_xml new_image thresh_image scripts data w w (Ok (plot, Problem))
| JudgedFailed a b e : Reads decode w original a -> Reads decode w new_image b -> similarity (gray a) (gray b) = Err e ->
    Judged gray similarity otsu decode day plot original new_xml new_image thresh_image scripts data w w (Err e)
| JudgedSame a b q g w' : Reads decode w original a -> Reads decode w new_image b -> similarity (gray a) (gray b) = Ok (q, g) -> (q == 1)%Q ->
    Tidied true plot new_xml new_image scripts data w w' ->
    Judged gray similarity otsu decode day plot original new_xml new_image thresh_image scripts data w w' (Ok (plot, Identical))
| JudgedDifferent a b q g t w' : Reads decode w original a -> Reads decode w new_image b -> similarity (gray a) (gray b) = Ok (q, g) ->
    ~ (q == 1)%Q -> Threshold (otsu g) g t -> Put thresh_image (File (Picture t) day) w w' ->
    Judged gray similarity otsu decode day plot original new_xml new_image thresh_image scripts data w w' (Ok (plot, Different)).

(** Calls for the threshold image, and for the boxes in the first and in the second image. *)
Definition ForThresh (m : call) : Prop := m = SaveThresh \/ m = ShowThresh.
Definition ForFirst (m : call) : Prop := m = SaveIn1 \/ m = ShowIn1.
Definition ForSecond (m : call) : Prop := m = SaveIn2 \/ m = ShowIn2.
(** Histories in which no call asks for the threshold image after it has been made, and none for the second image again. *)
Definition Allowed (l : list call) : Prop := forall before m after, l = (before ++ m :: after)%list ->
  (ForThresh m -> forall x, In x before -> ~ ForThresh x /\ ~ ForFirst x /\ ~ ForSecond x) /\
  (ForSecond m -> forall x, In x before -> ~ ForSecond x).
(** What a call gives. *)
Inductive Gives (a b : list Z) (boxes : list Z -> list Z -> list Z) (level : Z) (q : Q) (g : list Z) : call -> output -> Prop :=
| GivesIndex : Gives a b boxes level q g GetMssim (Number q)
| GivesDifference m : m = SaveDifference \/ m = ShowDifference -> Gives a b boxes level q g m (Image g)
| GivesThresh m t : ForThresh m -> Threshold level g t -> Gives a b boxes level q g m (Image t)
| GivesFirst m t : ForFirst m -> Threshold level g t -> Gives a b boxes level q g m (Image (boxes t a))
| GivesSecond m t : ForSecond m -> Threshold level g t -> Gives a b boxes level q g m (Image (boxes t b)).

(** Parameters, documents and a disk for the examples: two documents and the plots made from them before. *)
Definition val_params : params := [("input_xml_dir", "/in/"); ("output_xml_dir", "/x/"); ("output_plots_dir", "/p/"); ("output_data_dir", "/d/");
  ("output_scripts_dir", "/s/"); ("mv_home", "/mv"); ("db_user", "me"); ("db_pass", "secret")].
Definition documented_params : params := [("input_xml_dir", "/in/"); ("output_xml_dir", "/x/"); ("output_plots_dir", "/p/"); ("r_dir", "/r/");
  ("mv_batch", "/mv/bin/mv_batch.sh"); ("db_user", "me"); ("db_password", "secret")].
Definition val_doc (plot : string) : list (string * option string) := [("plot_file", Some plot); ("plots", Some "/orig"); ("data_file", Some "a.data");
  ("r_file", Some "a.R"); ("r_tmpl", Some "t"); ("r_work", Some "w"); ("user", Some "u"); ("password", Some "p"); ("data", Some "d"); ("scripts", Some "s")].
Definition val_files (a : list Z) : disk := [("/in/b.xml", File (Doc (val_doc "b.png")) 8); ("/in/a.xml", File (Doc (val_doc "a.png")) 9);
  ("/in/c.txt", File (Other "text") 9); ("/in/d.xml", File (Doc (val_doc "d.png")) 7);
  ("/orig/a.png", File (Picture a) 3); ("/orig/b.png", File (Picture [1; 2]) 3); ("/x/old.xml", File (Other "old") 1)].
Definition val_disk : disk := val_files [1; 2].
Definition val_sizes : disk := val_files [1; 2; 3].
(** Images with as many numbers: equal or not, place by place. *)
Definition val_similarity (x y : list Z) : res (Q * list Z) :=
  if Nat.eqb (List.length x) (List.length y)
  then let g := map (fun p : Z * Z => if fst p =? snd p then 255 else 0) (combine x y) in
       Ok (if forallb (Z.eqb 255) g then 1%Q else (1 # 2)%Q, g)
  else Err ValueError.
Definition val_decode (b : body) : option (list Z) := match b with Picture a => Some a | _ => None end.
(** A program that makes the first plot as it was and the other ones differently. *)
Definition val_batch (command x : string) (w : disk) : disk :=
  match find_file x w with
  | Some {| content := Doc (("plot_file", Some n) :: _) |} => ("/p/" ++ n, File (Picture (if String.eqb n "a_py.png" then [1; 2] else [3; 2])) 9) :: w
  | _ => w
  end.
Definition val_made (path : string) (w : disk) : disk :=
  match prepare val_params path w with
  | Ok j => val_batch (command j) (new_xml j) (write_file 9 (new_xml j) (Doc (new_doc j)) w)
  | Err _ => w
  end.
