(** Checking plots against those of another version: metcalcpy/compare_images.py and metcalcpy/validate_mv_python.py.  The libraries for
    images, the program that makes the plots and the clock are parameters. *)
From Verif Require Import PyBase ColumnModel EventModel.
From Verif Require RocModel.
From Coq Require Import String Ascii List.
Import ListNotations.
Open Scope string_scope.
Open Scope Z_scope.

(** ** compare_images.py *)
(** Images as lists of numbers.  The truth of an array of numpy: only for one number (or none) there is one. *)
Definition truth (a : list Z) : res bool :=
  match a with [] => Ok false | [x] => Ok (negb (x =? 0)) | _ => Err ValueError end.
Record compared : Type := Compared { image_1 : list Z; image_2 : list Z; mssim : Q; grad : list Z;
  thresh : option (list Z); diff_1 : option (list Z); diff_2 : option (list Z) }.
(** The public methods, without the paths and keys. *)
Inductive call : Type := GetMssim | SaveDifference | ShowDifference | SaveThresh | ShowThresh | SaveIn1 | ShowIn1 | SaveIn2 | ShowIn2.
(** What a call returns, saves or shows. *)
Inductive output : Type := Number (q : Q) | Image (a : list Z).

Section Images.
(** Conversion to gray; [structural_similarity(…, full=True)] with the second image in bytes; the level chosen by [THRESH_OTSU]; an
    image with the boxes around the contours of another one drawn into it. *)
Variable gray : list Z -> list Z.
Variable similarity : list Z -> list Z -> res (Q * list Z).
Variable otsu : list Z -> Z.
Variable boxes : list Z -> list Z -> list Z.

(** compare_images.py 51-79; the arguments are what [cv2.imread] gives. *)
Definition compare_images (im1 im2 : option (list Z)) : res compared :=
  match im1 with
  | None => Err KeyError
  | Some a =>
      match im2 with
      | None => Err KeyError
      | Some b =>
          s <- similarity (gray a) (gray b) ;;
          Ok {| image_1 := a; image_2 := b; mssim := fst s; grad := snd s; thresh := None; diff_1 := None; diff_2 := None |}
      end
  end.
(** compare_images.py 104-112 *)
Definition init_thresh (c : compared) : compared :=
  {| image_1 := image_1 c; image_2 := image_2 c; mssim := mssim c; grad := grad c;
     thresh := Some (map (fun x => if otsu (grad c) <? x then 0 else 255) (grad c)); diff_1 := diff_1 c; diff_2 := diff_2 c |}.
(** [not x] for an attribute that is None or an array. *)
Definition falsy (x : option (list Z)) : res bool := match x with None => Ok true | Some a => b <- truth a ;; Ok (negb b) end.
(** An attribute that has been set; None for an image ends in an exception of cv2 (not modelled). *)
Definition shown (x : option (list Z)) : res output := match x with Some a => Ok (Image a) | None => Err NotModelled end.
(** compare_images.py 114-133 *)
Definition thresh_call (c : compared) : res (compared * output) :=
  n <- falsy (thresh c) ;;
  let c := if n then init_thresh c else c in
  o <- shown (thresh c) ;; Ok (c, o).
(** compare_images.py 135-151, 153-169 *)
Definition with_thresh (c : compared) : compared := match thresh c with None => init_thresh c | Some _ => c end.
Definition drawn (c : compared) (image : list Z) : list Z := boxes (match thresh c with Some t => t | None => [] end) image.
Definition init_diff_1 (c : compared) : compared :=
  let c := with_thresh c in
  {| image_1 := image_1 c; image_2 := image_2 c; mssim := mssim c; grad := grad c; thresh := thresh c;
     diff_1 := Some (drawn c (image_1 c)); diff_2 := diff_2 c |}.
Definition init_diff_2 (c : compared) : compared :=
  let c := with_thresh c in
  {| image_1 := image_1 c; image_2 := image_2 c; mssim := mssim c; grad := grad c; thresh := thresh c;
     diff_1 := diff_1 c; diff_2 := Some (drawn c (image_2 c)) |}.
(** compare_images.py 171-190: [is None]. *)
Definition in_1_call (c : compared) : res (compared * output) :=
  let c := match diff_1 c with None => init_diff_1 c | Some _ => c end in
  o <- shown (diff_1 c) ;; Ok (c, o).
(** compare_images.py 192-211: [not]. *)
Definition in_2_call (c : compared) : res (compared * output) :=
  n <- falsy (diff_2 c) ;;
  let c := if n then init_diff_2 c else c in
  o <- shown (diff_2 c) ;; Ok (c, o).
(** compare_images.py 81-102 and above, by name. *)
Definition do_call (m : call) (c : compared) : res (compared * output) :=
  match m with
  | GetMssim => Ok (c, Number (mssim c))
  | SaveDifference | ShowDifference => Ok (c, Image (grad c))
  | SaveThresh | ShowThresh => thresh_call c
  | SaveIn1 | ShowIn1 => in_1_call c
  | SaveIn2 | ShowIn2 => in_2_call c
  end.
(** A history of calls. *)
Fixpoint do_calls (l : list call) (c : compared) : res (list output) :=
  match l with
  | [] => Ok []
  | m :: rest => r <- do_call m c ;; os <- do_calls rest (fst r) ;; Ok (snd r :: os)
  end.

(** ** validate_mv_python.py *)
(** A file: an XML document as the text of the first child of the first element of each name (None: it has no child), or an image, or
    anything else; and the local day of its last change.  A disk: the files by their paths.  Directories exist and hold files only. *)
Inductive body : Type := Doc (tags : list (string * option string)) | Picture (a : list Z) | Other (text : string).
Record file : Type := File { content : body; changed : Z }.
Definition disk : Type := list (string * file).
Definition find_file (path : string) (w : disk) : option file :=
  match find (fun x => String.eqb path (fst x)) w with Some x => Some (snd x) | None => None end.
Definition drop (path : string) (w : disk) : disk := filter (fun x => negb (String.eqb path (fst x))) w.
Definition has_file (path : string) (w : disk) : bool := match find_file path w with Some _ => true | None => false end.
(** [os.remove]; a missing file is an exception that is not modelled. *)
Definition remove_file (path : string) (w : disk) : res disk := if has_file path w then Ok (drop path w) else Err NotModelled.

(** The rest of a text after a prefix. *)
Fixpoint strip (p s : string) : option string :=
  match p, s with
  | EmptyString, _ => Some s
  | String a p', String b s' => if Ascii.eqb a b then strip p' s' else None
  | String _ _, EmptyString => None
  end.
Fixpoint has_char (c : ascii) (s : string) : bool := match s with EmptyString => false | String d s' => Ascii.eqb c d || has_char c s' end.
Fixpoint ends_slash (s : string) : bool :=
  match s with EmptyString => false | String c EmptyString => Ascii.eqb c "/" | String _ s' => ends_slash s' end.
(** [os.scandir], [os.listdir]: the files of a directory whose path ends with a slash. *)
Definition in_dir (d path : string) : bool :=
  match strip d path with Some name => negb (String.eqb name "") && negb (has_char "/" name) | None => false end.
Definition scandir (d : string) (w : disk) : list string := filter (in_dir d) (map fst w).

(** The parameters; directories that do not end with a slash are not modelled. *)
Definition params : Type := list (string * string).
Definition param (P : params) (key : string) : res string :=
  match find (fun x => String.eqb key (fst x)) P with Some x => Ok (snd x) | None => Err KeyError end.
Definition dir_param (P : params) (key : string) : res string :=
  d <- param P key ;; if ends_slash d then Ok d else Err NotModelled.

(** validate_mv_python.py 45-54, [replace_name]. *)
Fixpoint replace_name (old_name postfix : string) : string :=
  match old_name with
  | EmptyString => EmptyString
  | String c s => if Ascii.eqb c "." then "_" ++ postfix ++ "." ++ replace_name s postfix else String c (replace_name s postfix)
  end.
(** validate_mv_python.py 57-73, [clean]: what is removed stays removed if a key is missing. *)
Definition empty_dir (d : string) (w : disk) : disk := fold_left (fun w p => drop p w) (scandir d w) w.
Fixpoint clean_dirs (P : params) (keys : list string) (w : disk) : disk * res unit :=
  match keys with
  | [] => (w, Ok tt)
  | k :: rest => match dir_param P k with Err e => (w, Err e) | Ok d => clean_dirs P rest (empty_dir d w) end
  end.
Definition clean (P : params) (w : disk) : disk * res unit :=
  clean_dirs P ["output_xml_dir"; "output_plots_dir"; "output_data_dir"; "output_scripts_dir"] w.

(** validate_mv_python.py 168-179, [delete_similar_files]: [glob] with characters that mean something else is not modelled. *)
Definition special (s : string) : bool := has_char "*" s || has_char "?" s || has_char "[" s.
Definition matches (prefix path : string) : bool :=
  match strip prefix path with
  | None => false
  | Some rest =>
      negb (has_char "/" rest) &&
      (negb (ends_slash prefix) || match rest with EmptyString => false | String c _ => negb (Ascii.eqb c ".") end)
  end.
Definition delete_similar_files (directory file_name : string) (w : disk) : res disk :=
  match split_on "." file_name with
  | [] => Err IndexError
  | stem :: _ =>
      let prefix := directory ++ stem in
      if special prefix then Err NotModelled
      else Ok (fold_left (fun w p => drop p w) (filter (matches prefix) (map fst w)) w)
  end.

(** [datetime.strptime(text, '%Y-%m-%d').date()] as a number of days; the two readings of the clock; the day of new files. *)
Variable day_of : string -> res Z.
Variables now_start now_end : Z.
Variable day_new : Z.
(** validate_mv_python.py 209-236, [get_testing_period]. *)
Definition get_testing_period (P : params) : res (Z * Z) :=
  start <- match param P "start_date" with Ok s => day_of s | Err _ => Ok (now_start - 1) end ;;
  end_ <- match param P "end_date" with Ok s => day_of s | Err _ => Ok now_end end ;;
  if end_ <? start then Err KeyError else Ok (start, end_).
(** [os.path.splitext(name)[1]] of a name without slashes. *)
Fixpoint last_dot (s : string) : option (string * string) :=
  match s with
  | EmptyString => None
  | String c s' => match last_dot s' with
                   | Some (b, a) => Some (String c b, a)
                   | None => if Ascii.eqb c "." then Some ("", s') else None
                   end
  end.
Fixpoint only_dots (s : string) : bool := match s with EmptyString => true | String c s' => Ascii.eqb c "." && only_dots s' end.
Definition extension (name : string) : string :=
  match last_dot name with Some (b, a) => if only_dots b then "" else "." ++ a | None => "" end.
(** validate_mv_python.py 182-206, [get_test_xml]. *)
Definition get_test_xml (P : params) (w : disk) : res (list string) :=
  period <- get_testing_period P ;;
  d <- dir_param P "input_xml_dir" ;;
  Ok (RocModel.sort_by RocModel.text_le
       (filter (fun path => match strip d path, find_file path w with
                            | Some name, Some f => (fst period <=? changed f) && (changed f <=? snd period) && String.eqb (extension name) ".xml"
                            | _, _ => false
                            end) (scandir d w))).

(** [doc.getElementsByTagName(tag)[0].firstChild.nodeValue], read and assigned. *)
Definition tag_value (doc : list (string * option string)) (tag : string) : res string :=
  match find (fun x => String.eqb tag (fst x)) doc with
  | None => Err IndexError
  | Some (_, None) => Err AttributeError
  | Some (_, Some v) => Ok v
  end.
Fixpoint set_first (tag v : string) (doc : list (string * option string)) : list (string * option string) :=
  match doc with
  | [] => []
  | x :: rest => if String.eqb tag (fst x) then (fst x, Some v) :: rest else x :: set_first tag v rest
  end.
Definition set_tag (tag v : string) (doc : list (string * option string)) : res (list (string * option string)) :=
  _ <- tag_value doc tag ;; Ok (set_first tag v doc).
(** [os.path.basename]. *)
Fixpoint basename (s : string) : string :=
  match s with EmptyString => "" | String c s' => if has_char "/" s' then basename s' else if Ascii.eqb c "/" then s' else s end.

(** One line of the report. *)
Inductive verdict : Type := BothAbsent | Identical | Different | Problem.
(** What is known before the new plot is made. *)
Record job : Type := Job { plot : string; original : string; new_xml : string; new_image : string; new_doc : list (string * option string);
  plots_dir : string; data_dir : string; scripts_dir : string; command : string }.
(** validate_mv_python.py 94-119.  A file that is no XML document, and names of plots that are empty or with slashes, are not modelled. *)
Definition prepare (P : params) (path : string) (w : disk) : res job :=
  match find_file path w with
  | Some {| content := Doc doc |} =>
      plot_name <- tag_value doc "plot_file" ;;
      plot_path <- tag_value doc "plots" ;;
      doc <- set_tag "plot_file" (replace_name plot_name "py") doc ;;
      data_file <- tag_value doc "data_file" ;;
      doc <- set_tag "data_file" (replace_name data_file "py") doc ;;
      r_file <- tag_value doc "r_file" ;;
      doc <- set_tag "r_file" (replace_name r_file "py") doc ;;
      home <- param P "mv_home" ;;
      doc <- set_tag "r_tmpl" (home ++ "R_tmpl") doc ;;
      doc <- set_tag "r_work" (home ++ "R_work") doc ;;
      plots <- dir_param P "output_plots_dir" ;;
      doc <- set_tag "plots" plots doc ;;
      user <- param P "db_user" ;;
      doc <- set_tag "user" user doc ;;
      pass <- param P "db_pass" ;;
      doc <- set_tag "password" pass doc ;;
      data <- dir_param P "output_data_dir" ;;
      doc <- set_tag "data" data doc ;;
      scripts <- dir_param P "output_scripts_dir" ;;
      doc <- set_tag "scripts" scripts doc ;;
      xml <- dir_param P "output_xml_dir" ;;
      if String.eqb plot_name "" || has_char "/" plot_name then Err NotModelled
      else Ok {| plot := plot_name; original := plot_path ++ "/" ++ plot_name; new_xml := xml ++ basename (replace_name path "py");
                 new_image := plots ++ replace_name plot_name "py"; new_doc := doc;
                 plots_dir := plots; data_dir := data; scripts_dir := scripts; command := home ++ "/bin/mv_batch.sh" |}
  | _ => Err NotModelled
  end.
(** The program that makes a plot, with its command and the new document: it changes the disk. *)
Variable batch : string -> string -> disk -> disk.
(** [cv2.imread] of the bytes of a file. *)
Variable decode : body -> option (list Z).
Definition imread (path : string) (w : disk) : option (list Z) := match find_file path w with Some f => decode (content f) | None => None end.
Definition write_file (path : string) (c : body) (w : disk) : disk := (path, File c day_new) :: drop path w.
(** validate_mv_python.py 130-141, 149-157: the new files of a plot that is as it was. *)
Definition tidy (j : job) (image : bool) (w : disk) : res disk :=
  w <- (if image then remove_file (new_image j) w else Ok w) ;;
  w <- remove_file (new_xml j) w ;;
  w <- delete_similar_files (scripts_dir j) (plot j) w ;;
  delete_similar_files (data_dir j) (plot j) w.
Definition after (w : disk) (r : res disk) (v : verdict) : disk * res verdict := match r with Ok w' => (w', Ok v) | Err e => (w, Err e) end.
(** validate_mv_python.py 127-165: after the plot has been made.  Only KeyError is caught. *)
Definition judge (j : job) (w : disk) : disk * res verdict :=
  if negb (has_file (original j) w) && negb (has_file (new_image j) w) then after w (tidy j false w) BothAbsent
  else
    match compare_images (imread (original j) w) (imread (new_image j) w) with
    | Err KeyError => (w, Ok Problem)
    | Err e => (w, Err e)
    | Ok c =>
        if Qeq_bool (mssim c) 1 then after w (tidy j true w) Identical
        else match do_call SaveThresh c with
             | Ok (_, Image a) => (write_file (plots_dir j ++ replace_name (plot j) "thresh") (Picture a) w, Ok Different)
             | Ok (_, Number _) => (w, Err NotModelled)
             | Err KeyError => (w, Ok Problem)
             | Err e => (w, Err e)
             end
    end.
(** validate_mv_python.py 91-165: one document. *)
Definition check (P : params) (path : string) (w : disk) : disk * res (string * verdict) :=
  match prepare P path w with
  | Err e => (w, Err e)
  | Ok j =>
      let w := batch (command j) (new_xml j) (write_file (new_xml j) (Doc (new_doc j)) w) in
      let '(w, r) := judge j w in (w, v <- r ;; Ok (plot j, v))
  end.
Fixpoint checks (P : params) (files : list string) (w : disk) : disk * list (string * verdict) * res unit :=
  match files with
  | [] => (w, [], Ok tt)
  | path :: rest =>
      let '(w, r) := check P path w in
      match r with
      | Err e => (w, [], Err e)
      | Ok v => let '(w, vs, e) := checks P rest w in (w, v :: vs, e)
      end
  end.
(** validate_mv_python.py 76-165, [main]: the disk, the report, and the exception that ends it. *)
Definition main (P : params) (w : disk) : disk * list (string * verdict) * res unit :=
  let '(w, r) := clean P w in
  match r with
  | Err e => (w, [], Err e)
  | Ok _ => match get_test_xml P w with
            | Err e => (w, [], Err e)
            | Ok files => checks P files w
            end
  end.
End Images.
