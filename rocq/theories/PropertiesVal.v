(** C135 to C139: checking plots against those of another version. *)
From Coq Require Import String Ascii List Sorted.
From Verif Require Import PyBase ValModel ValSpec ValProofs.
Import ListNotations.
Open Scope string_scope.
Open Scope Z_scope.

(** C135: the postfix is put before every dot of a name. *)
Theorem C135_name : forall parts postfix, Forall (Without ".") parts ->
  replace_name (String.concat "." parts) postfix = String.concat ("_" ++ postfix ++ ".") parts.
Proof. exact C135_name_proof. Qed.
Print Assumptions C135_name.
Example C135_name_case : Forall (Without ".") ["plot"; "png"] /\ replace_name "plot.png" "py" = "plot_py.png".
Proof. exact C135_name_case_proof. Qed.

(** C135, as documented (the postfix before the extension): false for a name with two dots. *)
Theorem C135_extension_refuted : ~ (forall stem ext postfix, Without "." ext ->
  replace_name (stem ++ "." ++ ext) postfix = stem ++ "_" ++ postfix ++ "." ++ ext).
Proof. exact C135_extension_refuted_proof. Qed.
Print Assumptions C135_extension_refuted.
Example C135_extension_refuted_case : replace_name "plot.v1.png" "py" = "plot_py.v1_py.png".
Proof. exact C135_extension_refuted_case_proof. Qed.

(** C136: the start of a run removes all files of the four output directories and nothing else. *)
Theorem C136_clean : forall P w xml plots data scripts,
  Maps P "output_xml_dir" xml -> Maps P "output_plots_dir" plots -> Maps P "output_data_dir" data -> Maps P "output_scripts_dir" scripts ->
  Slash xml -> Slash plots -> Slash data -> Slash scripts ->
  exists w', clean P w = (w', Ok tt) /\ Removed (fun p => InDir xml p \/ InDir plots p \/ InDir data p \/ InDir scripts p) w w'.
Proof. exact C136_clean_proof. Qed.
Print Assumptions C136_clean.
Example C136_clean_case : Maps val_params "output_xml_dir" "/x/" /\ Slash "/x/" /\ InDir "/x/" "/x/a.xml" /\ ~ InDir "/x/" "/x/y/a.xml".
Proof. exact C136_clean_case_proof. Qed.

(** C136: with the parameters that the documentation lists, two directories are emptied and then the run ends with KeyError. *)
Theorem C136_documented : forall P w xml plots, Maps P "output_xml_dir" xml -> Maps P "output_plots_dir" plots -> Absent P "output_data_dir" ->
  Slash xml -> Slash plots -> exists w', clean P w = (w', Err KeyError) /\ Removed (fun p => InDir xml p \/ InDir plots p) w w'.
Proof. exact C136_documented_proof. Qed.
Print Assumptions C136_documented.
Example C136_documented_case : Absent documented_params "output_data_dir" /\ Maps documented_params "output_plots_dir" "/p/".
Proof. exact C136_documented_case_proof. Qed.

(** C136: what is deleted for a plot: all files of the directory whose names start with the name of the plot up to its first dot. *)
Theorem C136_similar : forall d name stem w, StemOf name stem -> Without "/" stem -> Slash d -> Plain d -> Plain stem ->
  exists w', delete_similar_files d name w = Ok w' /\ Removed (Similar d stem) w w'.
Proof. exact C136_similar_proof. Qed.
Print Assumptions C136_similar.
Example C136_similar_case : StemOf "plot_1.png" "plot_1" /\ Similar "/d/" "plot_1" "/d/plot_1.data" /\ Similar "/d/" "plot_1" "/d/plot_10.data" /\
  ~ Similar "/d/" "plot_1" "/d/plot_2.data".
Proof. exact C136_similar_case_proof. Qed.

(** C136, full statement (the files of other plots stay): false, plot_1 takes those of plot_10 with it. *)
Theorem C136_similar_refuted : ~ (forall d plot other w w' f, plot <> other -> delete_similar_files d (plot ++ ".png") w = Ok w' ->
  Maps w (d ++ other ++ ".data") f -> Maps w' (d ++ other ++ ".data") f).
Proof. exact C136_similar_refuted_proof. Qed.
Print Assumptions C136_similar_refuted.
Example C136_similar_refuted_case : "plot_1" <> "plot_10" /\ delete_similar_files "/d/" "plot_1.png" [("/d/plot_10.data", File (Other "x") 0)] = Ok [].
Proof. exact C136_similar_refuted_case_proof. Qed.

(** C137: the period that is tested. *)
Theorem C137_period : forall day_of now now' P first last,
  get_testing_period day_of now now' P = Ok (first, last) <-> FirstDay day_of now P first /\ LastDay day_of now' P last /\ first <= last.
Proof. exact C137_period_proof. Qed.
Print Assumptions C137_period.
Example C137_period_case : FirstDay (fun _ => Ok 5) 9 [("start_date", "2020-01-06")] 5 /\ LastDay (fun _ => Ok 5) 9 [("start_date", "2020-01-06")] 9.
Proof. exact C137_period_case_proof. Qed.

(** C137: a last day before the first one is refused. *)
Theorem C137_refused : forall day_of now now' P w first last, FirstDay day_of now P first -> LastDay day_of now' P last -> last < first ->
  get_test_xml day_of now now' P w = Err KeyError.
Proof. exact C137_refused_proof. Qed.
Print Assumptions C137_refused.
Example C137_refused_case : FirstDay (fun _ => Ok 10) 9 [("start_date", "2020-01-11")] 10 /\ LastDay (fun _ => Ok 10) 9 [("start_date", "2020-01-11")] 9.
Proof. exact C137_refused_case_proof. Qed.

(** C137: exactly the XML files of the directory that were changed in the period are tested, each once, in the order of their paths. *)
Theorem C137_selected : forall day_of now now' P w d first last, Maps P "input_xml_dir" d -> Slash d ->
  FirstDay day_of now P first -> LastDay day_of now' P last -> first <= last -> NoDup (map fst w) ->
  exists files, get_test_xml day_of now now' P w = Ok files /\
    (forall p, In p files <-> exists name f, p = d ++ name /\ name <> "" /\ Without "/" name /\ XmlName name /\ Maps w p f /\ first <= changed f <= last) /\
    StronglySorted (fun p q => String.compare p q = Lt) files.
Proof. exact C137_selected_proof. Qed.
Print Assumptions C137_selected.
Example C137_selected_case : XmlName "a.xml" /\ XmlName ".a.xml" /\ ~ XmlName ".xml" /\ ~ XmlName "a.xml.bak" /\
  get_test_xml (fun _ => Ok 0) 9 9 val_params val_disk = Ok ["/in/a.xml"; "/in/b.xml"].
Proof. exact C137_selected_case_proof. Qed.

(** C138: one document: a copy with the new names and places is written and given to the program, and then the two plots are judged. *)
Theorem C138_check : forall gray similarity otsu boxes day_new batch decode P w d name day doc plot where_ data_file r_file
    home xml plots data scripts user pass,
  (forall x y, similarity x y <> Err KeyError) -> (forall c x w, ~ Absent w x -> ~ Absent (batch c x w) x) ->
  Slash d -> name <> "" -> Without "/" name -> Maps w (d ++ name) (File (Doc doc) day) ->
  Maps doc "plot_file" (Some plot) -> plot <> "" -> Without "/" plot -> Plain plot -> Maps doc "plots" (Some where_) ->
  Maps doc "data_file" (Some data_file) -> Maps doc "r_file" (Some r_file) ->
  (forall t, In t ["r_tmpl"; "r_work"; "user"; "password"; "data"; "scripts"] -> exists v, Maps doc t (Some v)) ->
  Maps P "mv_home" home -> Maps P "db_user" user -> Maps P "db_pass" pass ->
  Maps P "output_xml_dir" xml -> Maps P "output_plots_dir" plots -> Maps P "output_data_dir" data -> Maps P "output_scripts_dir" scripts ->
  Slash xml -> Slash plots -> Slash data -> Slash scripts -> Plain data -> Plain scripts -> xml <> plots ->
  let new_xml := xml ++ replace_name name "py" in
  exists doc' w0 w' r,
    Rewritten [("plot_file", replace_name plot "py"); ("data_file", replace_name data_file "py"); ("r_file", replace_name r_file "py");
               ("r_tmpl", home ++ "R_tmpl"); ("r_work", home ++ "R_work"); ("plots", plots); ("user", user); ("password", pass);
               ("data", data); ("scripts", scripts)] doc doc' /\
    Put new_xml (File (Doc doc') day_new) w w0 /\
    check gray similarity otsu boxes day_new batch decode P (d ++ name) w = (w', r) /\
    Judged gray similarity otsu decode day_new plot (where_ ++ "/" ++ plot) new_xml (plots ++ replace_name plot "py")
      (plots ++ replace_name plot "thresh") scripts data (batch (home ++ "/bin/mv_batch.sh") new_xml w0) w' r.
Proof. exact C138_check_proof. Qed.
Print Assumptions C138_check.
Example C138_check_case : Maps val_disk "/in/a.xml" (File (Doc (val_doc "a.png")) 9) /\ Maps (val_doc "a.png") "plot_file" (Some "a.png") /\
  check id val_similarity (fun _ => 0) (fun _ a => a) 9 val_batch val_decode val_params "/in/b.xml" val_disk =
    (("/p/b_thresh.png", File (Picture [255; 0]) 9) :: val_made "/in/b.xml" val_disk, Ok ("b.png", Different)).
Proof. exact C138_check_case_proof. Qed.

(** C138: a document without the name or the place of its plot ends the run. *)
Theorem C138_no_tag : forall gray similarity otsu boxes day_new batch decode P w p doc day, Maps w p (File (Doc doc) day) ->
  (Absent doc "plot_file" -> check gray similarity otsu boxes day_new batch decode P p w = (w, Err IndexError)) /\
  (Maps doc "plot_file" None -> check gray similarity otsu boxes day_new batch decode P p w = (w, Err AttributeError)) /\
  (forall plot, Maps doc "plot_file" (Some plot) -> Absent doc "plots" ->
    check gray similarity otsu boxes day_new batch decode P p w = (w, Err IndexError)).
Proof. exact C138_no_tag_proof. Qed.
Print Assumptions C138_no_tag.
Example C138_no_tag_case : Maps [("/in/c.xml", File (Doc [("plots", None)]) 9)] "/in/c.xml" (File (Doc [("plots", None)]) 9) /\
  Absent [("plots", @None string)] "plot_file".
Proof. exact C138_no_tag_case_proof. Qed.

(** C138: whatever happens, files outside the four output directories are untouched, if the program that makes the plots leaves them. *)
Theorem C138_untouched : forall gray similarity otsu boxes day_of now now' day_new batch decode P w xml plots data scripts w' report r,
  Maps P "output_xml_dir" xml -> Maps P "output_plots_dir" plots -> Maps P "output_data_dir" data -> Maps P "output_scripts_dir" scripts ->
  Slash xml -> Slash plots -> Slash data -> Slash scripts ->
  let outside p := ~ InDir xml p /\ ~ InDir plots p /\ ~ InDir data p /\ ~ InDir scripts p in
  (forall c x w p, outside p -> SameAt w (batch c x w) p) ->
  main gray similarity otsu boxes day_of now now' day_new batch decode P w = (w', report, r) ->
  forall p, outside p -> SameAt w w' p.
Proof. exact C138_untouched_proof. Qed.
Print Assumptions C138_untouched.
Example C138_untouched_case : Maps val_params "output_xml_dir" "/x/" /\ ~ InDir "/x/" "/in/a.xml" /\ ~ InDir "/p/" "/in/a.xml" /\
  ~ InDir "/d/" "/in/a.xml" /\ ~ InDir "/s/" "/in/a.xml".
Proof. exact C138_untouched_case_proof. Qed.

(** C138: a run that ends normally reports each selected document once, in order, by the name of its plot. *)
Theorem C138_report : forall gray similarity otsu boxes day_of now now' day_new batch decode P w d xml plots data scripts w' report,
  Maps P "input_xml_dir" d -> Slash d ->
  Maps P "output_xml_dir" xml -> Maps P "output_plots_dir" plots -> Maps P "output_data_dir" data -> Maps P "output_scripts_dir" scripts ->
  Slash xml -> Slash plots -> Slash data -> Slash scripts ->
  let outside p := ~ InDir xml p /\ ~ InDir plots p /\ ~ InDir data p /\ ~ InDir scripts p in
  (forall p, InDir d p -> outside p) -> (forall c x w p, outside p -> SameAt w (batch c x w) p) -> NoDup (map fst w) ->
  main gray similarity otsu boxes day_of now now' day_new batch decode P w = (w', report, Ok tt) ->
  exists files, get_test_xml day_of now now' P w = Ok files /\
    Forall2 (fun p x => exists doc day, Maps w p (File (Doc doc) day) /\ Maps doc "plot_file" (Some (fst x))) files report.
Proof. exact C138_report_proof. Qed.
Print Assumptions C138_report.
Example C138_report_case :
  snd (fst (main id val_similarity (fun _ => 0) (fun _ a => a) (fun _ => Ok 0) 9 9 9 val_batch val_decode val_params val_disk)) =
  [("a.png", Identical); ("b.png", Different)].
Proof. exact C138_report_case_proof. Qed.

(** C138, full statement (every selected document is reported): false, images of different sizes end the run. *)
Theorem C138_all_refuted : ~ (forall gray similarity otsu boxes day_of now now' day_new batch decode P w w' report r files,
  (forall x y e, similarity x y = Err e -> e = ValueError) ->
  get_test_xml day_of now now' P w = Ok files -> Forall (fun p => exists plot day, Maps w p (File (Doc (val_doc plot)) day)) files ->
  main gray similarity otsu boxes day_of now now' day_new batch decode P w = (w', report, r) -> List.length report = List.length files).
Proof. exact C138_all_refuted_proof. Qed.
Print Assumptions C138_all_refuted.
Example C138_all_refuted_case :
  main id val_similarity (fun _ => 0) (fun _ a => a) (fun _ => Ok 0) 9 9 9 val_batch val_decode val_params val_sizes =
  (fst (fst (main id val_similarity (fun _ => 0) (fun _ a => a) (fun _ => Ok 0) 9 9 9 val_batch val_decode val_params val_sizes)), [], Err ValueError).
Proof. exact C138_all_refuted_case_proof. Qed.

(** C139: images that cannot be read are refused. *)
Theorem C139_unreadable : forall gray similarity im1 im2, im1 = None \/ im2 = None -> compare_images gray similarity im1 im2 = Err KeyError.
Proof. exact C139_unreadable_proof. Qed.
Print Assumptions C139_unreadable.
Example C139_unreadable_case : compare_images id val_similarity (Some [1; 2]) (Some [1; 3; 4]) = Err ValueError.
Proof. exact C139_unreadable_case_proof. Qed.

(** C139: a history of calls gives what each call alone gives, if it is allowed; every other history ends with ValueError. *)
Theorem C139_history : forall gray similarity otsu boxes a b q g c l,
  similarity (gray a) (gray b) = Ok (q, g) -> (2 <= List.length g)%nat -> (2 <= List.length b)%nat ->
  (forall t x, List.length (boxes t x) = List.length x) ->
  compare_images gray similarity (Some a) (Some b) = Ok c ->
  (Allowed l -> exists out, do_calls otsu boxes l c = Ok out /\ Forall2 (Gives a b boxes (otsu g) q g) l out) /\
  (~ Allowed l -> do_calls otsu boxes l c = Err ValueError).
Proof. exact C139_history_proof. Qed.
Print Assumptions C139_history.
Example C139_history_case : Allowed [GetMssim; SaveThresh; SaveIn1; ShowIn1; SaveIn2] /\ ~ Allowed [SaveIn1; SaveThresh] /\ ~ Allowed [SaveIn2; ShowIn2].
Proof. exact C139_history_case_proof. Qed.

(** C139, full statement (the image of the differences can be saved and then shown): false. *)
Theorem C139_again_refuted : ~ (forall gray similarity otsu boxes a b c, compare_images gray similarity (Some a) (Some b) = Ok c ->
  exists out, do_calls otsu boxes [SaveThresh; ShowThresh] c = Ok out).
Proof. exact C139_again_refuted_proof. Qed.
Print Assumptions C139_again_refuted.
Example C139_again_refuted_case : compare_images id val_similarity (Some [1; 2]) (Some [1; 2]) =
  Ok (Compared [1; 2] [1; 2] 1 [255; 255] None None None).
Proof. exact C139_again_refuted_case_proof. Qed.
