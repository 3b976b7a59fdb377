(** * C107: a configuration is exported and read again
    config.py l.66-609 (Config: all its settings, from_yaml, the validators, to_file, to_string);
    tracking/io.py l.184 (to_string is an attribute of every output file). *)
From Coq Require Import Reals Lra Arith Lia Bool List ZArith String Ascii.
From Verif Require Import Num Arr Run Calendar DateText Strings JsonText.
From Verif Require Config.
Import ListNotations.
Local Open Scope Z_scope.
Local Open Scope string_scope.
Local Open Scope list_scope.

(** ** Model *)
(** What pydantic and Python do with floats and URLs.  [float_of_text] is float(text) and [repr] is
    float.__repr__; [normal_url] is pydantic's HttpUrl: the normal form of a URL, or nothing. *)
Record library := mklibrary {
  F : Type;
  value : F -> XR;
  repr : F -> string;
  float_of_text : string -> option F;
  float_of_int : Z -> option F;
  normal_url : text -> option text }.

(** pathlib.PurePosixPath: the number of slashes of the root (0: relative) and the parts *)
Record path := mkpath { root : nat; parts : list text }.
Definition slash : Z := 47.
Fixpoint split (u : text) : list text :=
  match u with
  | [] => [[]]
  | c :: u => if Z.eqb c slash then [] :: split u else match split u with [] => [[c]] | p :: l => (c :: p) :: l end
  end.
Fixpoint leading (u : text) : nat := match u with c :: u => if Z.eqb c slash then S (leading u) else O | [] => O end.
(** one slash, or three and more, are one root; exactly two are another *)
Definition root_of (u : text) : nat := match leading u with 0 => 0 | 1 => 1 | 2 => 2 | _ => 1 end%nat.
Definition is_part (p : text) : bool := match p with [] => false | [c] => negb (Z.eqb c 46) | _ => true end.
Definition path_of (u : text) : path := mkpath (root_of u) (filter is_part (split u)).
Fixpoint join (l : list text) : text := match l with [] => [] | [p] => p | p :: l => p ++ slash :: join l end.
(** str(path) *)
Definition path_str (p : path) : text := match root p, parts p with O, [] => [46] | n, l => repeat slash n ++ join l end.
(** Path.absolute() in the working directory [cwd] *)
Definition absolute (cwd p : path) : path := match root p with O => mkpath (root cwd) (parts cwd ++ parts p) | _ => p end.

Section Model.
Variable L : library.
Inductive folder := Url (u : text) | Local (p : path).
Inductive region := File (p : path) | Box (west south east north : F L).
Record config := mkconfig {
  filename_template : text;
  preprocessed_data_folder : folder;
  calendar_name : string;
  tracking_direction : string;
  tagging_region : region;
  tracking_domain : option (F L * F L * F L * F L);
  output_folder : path;
  preprocess_start_date : Z; preprocess_end_date : Z;
  parallel_preprocess : bool;
  parallel_processes : option Z;
  tracking_start_date : Z; tracking_end_date : Z; tagging_start_date : Z; tagging_end_date : Z;
  input_frequency : text;
  timestep : Z;
  output_frequency : text;
  level_type : string;
  levels : option (list Z);                  (* None: All *)
  restart : bool;
  periodic_boundary : bool;
  kvf : F L;
  level_layer_boundary : Z;
  pressure_boundary_factor : F L;
  pressure_boundary_offset : F L }.

(** l.40-45 and l.51-63 by way of Config.check_box *)
Definition box_of (w s e n : F L) : Config.box := Config.mkbox (value L w) (value L s) (value L e) (value L n).
Definition fix_frequency (u : text) : text := match to_ascii u with Some s => of_string (fix_deprecated_frequency s) | None => u end.

(** *** Reading.  Of pydantic's conversions these: texts and whole numbers where floats are wanted.  Whole numbers
    given as floats or texts, truth values given as numbers or texts, and boxes given as mappings are left out
    (rejected here, accepted there).  Frequencies with digits outside ASCII are not rewritten. *)
Section Reading.
Variable cwd : path.
Variable is_file : path -> bool.
Definition need {A} (read : yaml -> res A) (o : option yaml) : res A := match o with Some y => read y | None => Err ValueError end.
Definition optional {A} (d : res A) (read : yaml -> res A) (o : option yaml) : res A := match o with Some y => read y | None => d end.
Definition read_text (y : yaml) : res text := match y with YStr u => OK u | _ => Err ValueError end.
Definition read_literal (choices : list string) (y : yaml) : res string :=
  match y with
  | YStr u => match to_ascii u with Some s => if existsb (String.eqb s) choices then OK s else Err ValueError | None => Err ValueError end
  | _ => Err ValueError
  end.
Definition read_bool (y : yaml) : res bool := match y with YBool b => OK b | _ => Err ValueError end.
Definition read_int (y : yaml) : res Z := match y with YInt z => OK z | _ => Err ValueError end.
Definition read_opt_int (y : yaml) : res (option Z) := match y with YNull => OK None | YInt z => OK (Some z) | _ => Err ValueError end.
Definition some_float (o : option (F L)) : res (F L) := match o with Some x => OK x | None => Err ValueError end.
Definition read_float (y : yaml) : res (F L) :=
  match y with
  | YInt z => some_float (float_of_int L z)
  | YFloat t => some_float (float_of_text L t)
  | YStr u => match to_ascii u with Some t => some_float (float_of_text L t) | None => Err ValueError end
  | _ => Err ValueError
  end.
(** l.523-529 (the name says otherwise: ~ is not expanded); creating the folders (l.531-538) is C109 *)
Definition read_path (y : yaml) : res path := do u <- read_text y; OK (absolute cwd (path_of u)).
Definition read_folder (y : yaml) : res folder :=
  do u <- read_text y; OK (match normal_url L u with Some v => Url v | None => Local (absolute cwd (path_of u)) end).
Definition read_box (y : yaml) : res (F L * F L * F L * F L) :=
  match y with
  | YList [a; b; c; d] =>
      do w <- read_float a; do s <- read_float b; do e <- read_float c; do n <- read_float d;
      do _ <- Config.check_box (box_of w s e n); OK (w, s, e, n)
  | _ => Err ValueError
  end.
Definition read_opt_box (y : yaml) : res (option (F L * F L * F L * F L)) := match y with YNull => OK None | _ => do b <- read_box y; OK (Some b) end.
(** l.135-137: FilePath or BoundingBox *)
Definition read_region (y : yaml) : res region :=
  match y with
  | YStr u => let p := absolute cwd (path_of u) in if is_file p then OK (File p) else Err ValueError
  | _ => do b <- read_box y; let '(w, s, e, n) := b in OK (Box w s e n)
  end.
Fixpoint read_ints (l : list yaml) : res (list Z) := match l with [] => OK [] | y :: l => do z <- read_int y; do zs <- read_ints l; OK (z :: zs) end.
Definition read_levels (y : yaml) : res (option (list Z)) :=
  match y with YList l => do zs <- read_ints l; OK (Some zs) | _ => do _ <- read_literal ["All"] y; OK None end.
Definition read_frequency (y : yaml) : res text := do u <- read_text y; OK (fix_frequency u).
(** l.540-562 *)
Definition read_calendar (o : option yaml) : res string :=
  match o with
  | None => OK "standard"
  | Some y => read_literal ["standard"; "gregorian"; "proleptic_gregorian"; "noleap"; "365_day"; "360_day"; "julian"; "all_leap"; "366_day"] y
  end.
Definition calendar_class (s : string) : calendar := match Config.calendar_of s with Some c => c | None => Standard end.
Definition read_date (c : calendar) (o : option yaml) : res Z :=
  match o with
  | None => Err KeyError
  | Some (YStr u) => match to_ascii u with Some s => cftime_from_iso c s | None => Err ValueError end
  | Some _ => Err OtherError
  end.
Fixpoint text_eqb (u v : text) : bool := match u, v with [], [] => true | a :: u, b :: v => Z.eqb a b && text_eqb u v | _, _ => false end.
(** of two entries with the same name the last one counts *)
Fixpoint get (m : list (text * yaml)) (k : string) : option yaml :=
  match m with
  | [] => None
  | (k', v) :: m => match get m k with Some w => Some w | None => if text_eqb k' (of_string k) then Some v else None end
  end.
(** l.521: cls( **settings ) *)
Definition validate (m : list (text * yaml)) : res config :=
  do cn <- read_calendar (get m "calendar");
  let c := calendar_class cn in
  do ts <- read_date c (get m "tracking_start_date");
  do te <- read_date c (get m "tracking_end_date");
  do gs <- read_date c (get m "tagging_start_date");
  do ge <- read_date c (get m "tagging_end_date");
  do ps <- read_date c (get m "preprocess_start_date");
  do pe <- read_date c (get m "preprocess_end_date");
  do ft <- need read_text (get m "filename_template");
  do pf <- need read_folder (get m "preprocessed_data_folder");
  do dir <- need (read_literal ["forward"; "backward"]) (get m "tracking_direction");
  do rg <- need read_region (get m "tagging_region");
  do dom <- optional (OK None) read_opt_box (get m "tracking_domain");
  do out <- need read_path (get m "output_folder");
  do pp <- optional (OK false) read_bool (get m "parallel_preprocess");
  do pn <- optional (OK None) read_opt_int (get m "parallel_processes");
  do fi <- need read_frequency (get m "input_frequency");
  do dt <- need read_int (get m "timestep");
  do fo <- need read_frequency (get m "output_frequency");
  do lt <- need (read_literal ["model_levels"; "pressure_levels"]) (get m "level_type");
  do lv <- need read_levels (get m "levels");
  do re <- need read_bool (get m "restart");
  do pb <- need read_bool (get m "periodic_boundary");
  do kv <- need read_float (get m "kvf");
  do lb <- optional (OK 111) read_int (get m "level_layer_boundary");
  do fa <- optional (some_float (float_of_text L "0.72878581")) read_float (get m "pressure_boundary_factor");
  do off <- optional (some_float (float_of_text L "7438.803223")) read_float (get m "pressure_boundary_offset");
  if Z.ltb te ts then Err ValueError else if Z.ltb ge gs then Err ValueError else if Z.ltb pe ps then Err ValueError else
  OK (mkconfig ft pf cn dir rg dom out ps pe pp pn ts te gs ge fi dt fo lt lv re pb kv lb fa off).
(** l.506-521 *)
Definition from_yaml (s : string) : res config := do y <- safe_load s; match y with YMap m => validate m | _ => Err TypeError end.
End Reading.

(** *** l.594-609.  pydantic writes floats that are not finite as null, and Python writes the others with repr *)
Definition dump_float (x : F L) : json := match value L x with Fin _ => JFloat (repr L x) | _ => JNull end.
Definition dump_box (w s e n : F L) : json := JList [dump_float w; dump_float s; dump_float e; dump_float n].
Definition dump_opt_int (o : option Z) : json := match o with Some z => JInt z | None => JNull end.
Definition dump_levels (o : option (list Z)) : json := match o with Some l => JList (map JInt l) | None => JStr (of_string "All") end.
Definition dump (cfg : config) : json :=
  let date t := JStr (of_string (export_date (calendar_class (calendar_name cfg)) t)) in
  JObj [("filename_template", JStr (filename_template cfg));
        ("preprocessed_data_folder", JStr (match preprocessed_data_folder cfg with Url u => u | Local p => path_str p end));
        ("calendar", JStr (of_string (calendar_name cfg)));
        ("tracking_direction", JStr (of_string (tracking_direction cfg)));
        ("tagging_region", match tagging_region cfg with File p => JStr (path_str p) | Box w s e n => dump_box w s e n end);
        ("tracking_domain", match tracking_domain cfg with Some (w, s, e, n) => dump_box w s e n | None => JNull end);
        ("output_folder", JStr (path_str (output_folder cfg)));
        ("parallel_preprocess", JBool (parallel_preprocess cfg));
        ("parallel_processes", dump_opt_int (parallel_processes cfg));
        ("input_frequency", JStr (input_frequency cfg));
        ("timestep", JInt (timestep cfg));
        ("output_frequency", JStr (output_frequency cfg));
        ("level_type", JStr (of_string (level_type cfg)));
        ("levels", dump_levels (levels cfg));
        ("restart", JBool (restart cfg));
        ("periodic_boundary", JBool (periodic_boundary cfg));
        ("kvf", dump_float (kvf cfg));
        ("level_layer_boundary", JInt (level_layer_boundary cfg));
        ("pressure_boundary_factor", dump_float (pressure_boundary_factor cfg));
        ("pressure_boundary_offset", dump_float (pressure_boundary_offset cfg));
        ("preprocess_start_date", date (preprocess_start_date cfg));
        ("preprocess_end_date", date (preprocess_end_date cfg));
        ("tracking_start_date", date (tracking_start_date cfg));
        ("tracking_end_date", date (tracking_end_date cfg));
        ("tagging_start_date", date (tagging_start_date cfg));
        ("tagging_end_date", date (tagging_end_date cfg))].
Definition to_string (cfg : config) : string := print (dump cfg).

(** ** Specification *)
(** what is relied on of Python's floats and pydantic's URLs: repr comes back, is written with digits, and a
    normal form is its own normal form and does not begin with a slash *)
Definition finite (x : F L) : Prop := exists r, value L x = Fin r.
Definition python_floats : Prop := forall x, finite x -> repr_text (repr L x) /\ float_of_text L (repr L x) = Some x.
Definition http_urls : Prop := forall u v, normal_url L u = Some v -> normal_url L v = Some v /\ forall w, u <> slash :: w.
(** an absolute path with the parts that a path can have *)
Definition absolute_path (p : path) : Prop :=
  (root p = 1 \/ root p = 2)%nat /\ List.Forall (fun q => q <> [] /\ q <> [46] /\ ~ In slash q) (parts p).
Definition class_of (cfg : config) : calendar := calendar_class (calendar_name cfg).
Definition dates (cfg : config) : list Z :=
  [preprocess_start_date cfg; preprocess_end_date cfg; tracking_start_date cfg; tracking_end_date cfg; tagging_start_date cfg; tagging_end_date cfg].
(** the configurations that there can be *)
Definition valid (is_file : path -> bool) (cfg : config) : Prop :=
  (exists c, Config.names (calendar_name cfg) c) /\
  In (tracking_direction cfg) ["forward"; "backward"] /\ In (level_type cfg) ["model_levels"; "pressure_levels"] /\
  match preprocessed_data_folder cfg with Url u => normal_url L u = Some u | Local p => absolute_path p end /\
  absolute_path (output_folder cfg) /\
  match tagging_region cfg with File p => absolute_path p /\ is_file p = true | Box w s e n => Config.valid_box (box_of w s e n) end /\
  match tracking_domain cfg with Some (w, s, e, n) => Config.valid_box (box_of w s e n) | None => True end /\
  fix_frequency (input_frequency cfg) = input_frequency cfg /\ fix_frequency (output_frequency cfg) = output_frequency cfg /\
  tracking_start_date cfg <= tracking_end_date cfg /\ tagging_start_date cfg <= tagging_end_date cfg /\ preprocess_start_date cfg <= preprocess_end_date cfg.
(** the texts in it *)
Definition texts (cfg : config) : list text :=
  [filename_template cfg; match preprocessed_data_folder cfg with Url u => u | Local p => path_str p end;
   match tagging_region cfg with File p => path_str p | Box _ _ _ _ => [] end; path_str (output_folder cfg); input_frequency cfg; output_frequency cfg].
Definition floats_finite (cfg : config) : Prop := finite (kvf cfg) /\ finite (pressure_boundary_factor cfg) /\ finite (pressure_boundary_offset cfg).
Definition whole_minutes (cfg : config) : Prop := List.Forall (fun t => t mod (60 * usec) = 0) (dates cfg).
Definition four_digit_years (cfg : config) : Prop := List.Forall (four_digit_year (class_of cfg)) (dates cfg).
Definition basic_plane (u : text) : Prop := List.Forall (fun c => 0 <= c < 65536) u.

(** ** Lemmas *)
Lemma text_eqb_eq u v : text_eqb u v = true <-> u = v.
Proof.
  revert v. induction u as [|a u IH]; intros [|b v]; cbn; split; try congruence; intros H.
  - apply andb_true_iff in H. destruct H as [H1 H2]. apply Z.eqb_eq in H1. apply IH in H2. congruence.
  - injection H as -> ->. rewrite Z.eqb_refl. now apply IH.
Qed.
Lemma to_ascii_of_string s : ascii_text s = true -> to_ascii (of_string s) = Some s.
Proof.
  induction s as [|a s IH]; [reflexivity|]. cbn [ascii_text of_string to_ascii]. intros H. apply andb_true_iff in H. destruct H as [Ha Hs]. rewrite IH by assumption.
  apply Z.ltb_lt in Ha. pose proof (code_range a). destruct (Z.leb_spec 0 (code a)); [|lia]. destruct (Z.ltb_spec (code a) 128); [|lia]. cbn [andb]. do 2 f_equal.
  unfold chr, code. rewrite Nat2Z.id. apply ascii_nat_embedding.
Qed.
Lemma of_string_to_ascii u s : to_ascii u = Some s -> of_string s = u /\ ascii_text s = true.
Proof.
  revert s. induction u as [|c u IH]; intros s; cbn [to_ascii].
  - intros [= <-]. split; reflexivity.
  - destruct (Z.leb_spec 0 c); destruct (Z.ltb_spec c 128); cbn [andb]; try discriminate. destruct (to_ascii u) as [t|]; [|discriminate]. intros [= <-].
    destruct (IH t eq_refl) as [E A]. cbn [of_string ascii_text]. rewrite code_chr by lia. rewrite E, A. split; [reflexivity|]. destruct (Z.ltb_spec c 128); [reflexivity|lia].
Qed.
(** paths *)
Lemma split_not u : ~ In slash u -> split u = [u].
Proof.
  induction u as [|c u IH]; [reflexivity|]. intros H. cbn [split]. destruct (Z.eqb_spec c slash) as [->|_]; [exfalso; apply H; now left|].
  rewrite IH; [reflexivity|]. intros X. apply H. now right.
Qed.
Lemma split_app u v : ~ In slash u -> split (u ++ slash :: v) = u :: split v.
Proof.
  induction u as [|c u IH]; intros H; cbn [List.app split].
  - reflexivity.
  - destruct (Z.eqb_spec c slash) as [->|_]; [exfalso; apply H; now left|]. rewrite IH; [reflexivity|]. intros X. apply H. now right.
Qed.
Lemma split_join l : List.Forall (fun q => q <> [] /\ q <> [46] /\ ~ In slash q) l -> filter is_part (split (join l)) = l.
Proof.
  assert (P : forall q, q <> [] /\ q <> [46] /\ ~ In slash q -> is_part q = true).
  { intros q (H1 & H2 & _). destruct q as [|a [|b q]]; [congruence| |reflexivity]. cbn. destruct (Z.eqb_spec a 46) as [->|N]; [congruence|reflexivity]. }
  induction 1 as [|q l Hq Hl IH]; [reflexivity|]. destruct l as [|q' l].
  - cbn [join]. rewrite split_not by apply Hq. cbn [filter]. now rewrite (P q Hq).
  - change (join (q :: q' :: l)) with (q ++ slash :: join (q' :: l)). rewrite split_app by apply Hq. cbn [filter]. rewrite (P q Hq). now rewrite IH.
Qed.
Lemma split_spec u : List.Forall (fun q => ~ In slash q) (split u).
Proof.
  induction u as [|c u IH]; cbn [split]; [constructor; auto|]. destruct (Z.eqb_spec c slash) as [->|N]; [constructor; auto|].
  destruct (split u) as [|p l]; [constructor; [intros [|[]]; congruence|constructor]|]. inversion IH; subst. constructor; [|assumption]. intros [X|X]; [congruence|auto].
Qed.
Lemma path_of_parts u : List.Forall (fun q => q <> [] /\ q <> [46] /\ ~ In slash q) (parts (path_of u)).
Proof.
  cbn [path_of parts]. rewrite List.Forall_forall. intros q H. apply filter_In in H. destruct H as [H1 H2]. pose proof (split_spec u) as S. rewrite List.Forall_forall in S.
  repeat split; [destruct q; [discriminate|congruence]| |now apply S]. intros ->. discriminate.
Qed.
Lemma absolute_absolute cwd u : absolute_path cwd -> absolute_path (absolute cwd (path_of u)).
Proof.
  intros [H1 H2]. unfold absolute. destruct (root (path_of u)) as [|k] eqn:E.
  - split; [exact H1|]. cbn [parts]. apply Forall_app. split; [assumption|apply path_of_parts].
  - split; [|apply path_of_parts]. rewrite E. cbn [path_of root] in E. unfold root_of in E. destruct (leading u) as [|[|[|n]]]; try discriminate; injection E as <-; auto.
Qed.
Lemma leading_join l : List.Forall (fun q => q <> [] /\ q <> [46] /\ ~ In slash q) l -> leading (join l) = O.
Proof.
  intros H. destruct H as [|q l (Hq & _ & Hs) Hl]; [reflexivity|]. destruct q as [|c q]; [congruence|].
  assert (c <> slash) by (intros ->; apply Hs; now left). destruct l; cbn [join List.app leading]; (destruct (Z.eqb_spec c slash); [congruence|reflexivity]).
Qed.
Lemma path_str_eq p : absolute_path p -> path_str p = repeat slash (root p) ++ join (parts p).
Proof. intros [H1 _]. unfold path_str. destruct H1 as [-> | ->]; reflexivity. Qed.
Lemma path_round p : absolute_path p -> path_of (path_str p) = p.
Proof.
  intros H. rewrite path_str_eq by assumption. destruct H as [H1 H2]. destruct p as [n l]. cbn [root parts] in *. unfold path_of.
  pose proof (leading_join l H2) as LJ. pose proof (split_join l H2) as SJ. destruct H1; subst n; cbn [repeat List.app]; f_equal; unfold root_of; cbn [leading split];
    change (Z.eqb slash slash) with true; cbn [filter is_part]; cbv iota; rewrite ?LJ; try reflexivity; assumption.
Qed.
Lemma path_str_slash p : absolute_path p -> exists w, path_str p = slash :: w.
Proof. intros [H1 _]. unfold path_str. destruct H1 as [-> | ->]; eexists; reflexivity. Qed.
Lemma absolute_same cwd p : absolute_path p -> absolute cwd p = p.
Proof. intros [[H|H] _]; unfold absolute; now rewrite H. Qed.
Lemma ascii_app s t : ascii_text (s ++ t)%string = (ascii_text s && ascii_text t)%bool.
Proof. induction s as [|a s IH]; [reflexivity|]. cbn [append ascii_text]. rewrite IH. apply andb_assoc. Qed.
Lemma digits_ascii w n : ascii_text (digits w n) = true.
Proof.
  revert n. induction w as [|w IH]; intros n; [reflexivity|]. cbn [digits]. rewrite ascii_app, IH. cbn [ascii_text]. rewrite andb_true_r. cbn [andb].
  unfold code, digit. pose proof (Z.mod_pos_bound n 10 ltac:(lia)). rewrite nat_ascii_embedding by lia. apply Z.ltb_lt. lia.
Qed.
Lemma export_ascii c t : ascii_text (export_date c t) = true.
Proof.
  unfold export_date, strf_day. destruct (date_of c t) as [[[y m] d]|]; rewrite !ascii_app, !digits_ascii; reflexivity.
Qed.
Lemma float_ascii r : all_float r = true -> ascii_text r = true.
Proof.
  induction r as [|a r IH]; [reflexivity|]. cbn [all_float ascii_text]. intros H. apply andb_true_iff in H. destruct H as [Ha Hr]. rewrite IH by assumption. rewrite andb_true_r.
  destruct a as [b0 b1 b2 b3 b4 b5 b6 b7]; destruct b0, b1, b2, b3, b4, b5, b6, b7; try reflexivity; discriminate Ha.
Qed.
Definition str (u : text) : yaml := as_yaml (JStr u).
Lemma back_text u : basic_plane u -> str u = YStr u.
Proof. intros H. unfold str. cbn [as_yaml]. rewrite surrogated_bmp; [reflexivity|]. eapply Forall_impl; [|exact H]. cbn. intros c Hc. lia. Qed.
Lemma back_ascii s : str (of_string s) = YStr (of_string s).
Proof. unfold str. cbn [as_yaml]. now rewrite surrogated_ascii. Qed.
Lemma back_literal choices s : In s choices -> ascii_text s = true -> read_literal choices (str (of_string s)) = OK s.
Proof.
  intros H A. rewrite back_ascii. unfold read_literal. rewrite to_ascii_of_string by assumption. replace (existsb (String.eqb s) choices) with true; [reflexivity|].
  symmetry. apply existsb_exists. exists s. split; [assumption|apply String.eqb_refl].
Qed.
Lemma back_float x : python_floats -> finite x -> read_float (as_yaml (dump_float x)) = OK x.
Proof.
  intros P H. destruct (P x H) as [[A B] C]. destruct H as [r E]. unfold dump_float. rewrite E. cbn [as_yaml]. destruct (float_pattern (repr L x)); cbn [read_float].
  - rewrite C. reflexivity.
  - rewrite to_ascii_of_string by now apply float_ascii. rewrite C. reflexivity.
Qed.
Lemma valid_box_finite w s e n : Config.valid_box (box_of w s e n) -> finite w /\ finite s /\ finite e /\ finite n.
Proof. intros (a & b & c & d & E & _). unfold box_of in E. injection E as E1 E2 E3 E4. repeat split; eexists; eassumption. Qed.
Lemma back_box w s e n : python_floats -> Config.valid_box (box_of w s e n) -> read_box (as_yaml (dump_box w s e n)) = OK (w, s, e, n).
Proof.
  intros P H. destruct (valid_box_finite _ _ _ _ H) as (H1 & H2 & H3 & H4). unfold dump_box. cbn [as_yaml map read_box]. rewrite !back_float by assumption. cbn [bind].
  destruct (Config.C42_boxes (box_of w s e n)) as [B _]. destruct (B (box_of w s e n)) as [_ B2]. rewrite (B2 (conj eq_refl H)). reflexivity.
Qed.
Lemma back_path cwd p : absolute_path p -> basic_plane (path_str p) -> read_path cwd (str (path_str p)) = OK p.
Proof. intros H B. rewrite back_text by assumption. unfold read_path. cbn [read_text bind]. now rewrite path_round, absolute_same. Qed.
Lemma back_folder cwd f : http_urls -> match f with Url u => normal_url L u = Some u | Local p => absolute_path p end ->
  let u := match f with Url u => u | Local p => path_str p end in basic_plane u -> read_folder cwd (str u) = OK f.
Proof.
  intros U H u B. rewrite back_text by assumption. unfold read_folder. cbn [read_text bind]. destruct f as [v|p]; subst u.
  - now rewrite H.
  - destruct (normal_url L (path_str p)) as [v|] eqn:E; [|now rewrite path_round, absolute_same]. destruct (U _ _ E) as [_ N]. destruct (path_str_slash p H) as (w & Ew). now destruct (N w).
Qed.
Lemma back_region cwd is_file g : python_floats ->
  match g with File p => absolute_path p /\ is_file p = true | Box w s e n => Config.valid_box (box_of w s e n) end ->
  basic_plane (match g with File p => path_str p | Box _ _ _ _ => [] end) ->
  read_region cwd is_file (as_yaml (match g with File p => JStr (path_str p) | Box w s e n => dump_box w s e n end)) = OK g.
Proof.
  intros P H B. destruct g as [p|w s e n].
  - destruct H as [H I]. change (as_yaml (JStr (path_str p))) with (str (path_str p)). rewrite back_text by assumption. cbn [read_region]. rewrite path_round, absolute_same by assumption. now rewrite I.
  - pose proof (back_box w s e n P H) as E. unfold dump_box in *. cbn [as_yaml map] in *. unfold read_region. rewrite E. reflexivity.
Qed.
Lemma back_domain d : python_floats -> match d with Some (w, s, e, n) => Config.valid_box (box_of w s e n) | None => True end ->
  read_opt_box (as_yaml (match d with Some (w, s, e, n) => dump_box w s e n | None => JNull end)) = OK d.
Proof.
  intros P H. destruct d as [[[[w s] e] n]|]; [|reflexivity]. pose proof (back_box w s e n P H) as E. unfold dump_box in *. cbn [as_yaml map] in *. unfold read_opt_box. rewrite E. reflexivity.
Qed.
Lemma back_ints l : read_ints (map as_yaml (map JInt l)) = OK l.
Proof. induction l as [|z l IH]; [reflexivity|]. cbn [map as_yaml read_ints read_int bind]. now rewrite IH. Qed.
Lemma back_levels o : read_levels (as_yaml (dump_levels o)) = OK o.
Proof. destruct o as [l|]; [|reflexivity]. cbn [dump_levels as_yaml read_levels]. now rewrite back_ints. Qed.
Lemma back_frequency u : fix_frequency u = u -> basic_plane u -> read_frequency (str u) = OK u.
Proof. intros H B. rewrite back_text by assumption. unfold read_frequency. cbn [read_text bind]. now rewrite H. Qed.
Lemma back_date c t : four_digit_year c t -> read_date c (Some (str (of_string (export_date c t)))) = OK (t - t mod (60 * usec)).
Proof. intros H. rewrite back_ascii. cbn [read_date]. rewrite to_ascii_of_string by apply export_ascii. now apply C43_export_cuts_to_the_minute. Qed.
Lemma back_opt_int o : read_opt_int (as_yaml (dump_opt_int o)) = OK o.
Proof. destruct o; reflexivity. Qed.
Lemma names_in s c : Config.names s c -> In s ["standard"; "gregorian"; "proleptic_gregorian"; "noleap"; "365_day"; "360_day"; "julian"; "all_leap"; "366_day"] /\ ascii_text s = true.
Proof. unfold Config.names. cbn. intros H. repeat (destruct H as [[= <- <-]|H]; [split; [auto 12|reflexivity]|]). destruct H. Qed.

(** the exported text is one that can be printed *)
Definition unicode_text (u : text) : Prop := List.Forall unicode u.
Lemma printable_float x : python_floats -> printable (dump_float x).
Proof. intros P. unfold dump_float. destruct (value L x) as [r| |] eqn:E; constructor. apply P. now exists r. Qed.
Lemma printable_box w s e n : python_floats -> printable (dump_box w s e n).
Proof. intros P. apply p_list. repeat (constructor; [now apply printable_float|]). constructor. Qed.
Lemma printable_dump cfg : python_floats -> List.Forall unicode_text (texts cfg) -> printable (dump cfg).
Proof.
  intros P T. unfold texts in T. inversion T as [|? ? T1 T']; subst. inversion T' as [|? ? T2 T'']; subst. inversion T'' as [|? ? T3 T3']; subst. inversion T3' as [|? ? T4 T4']; subst.
  inversion T4' as [|? ? T5 T5']; subst. inversion T5' as [|? ? T6 _]; subst.
  unfold dump. apply p_obj.
  repeat (apply List.Forall_cons; [split; [reflexivity|cbn [snd]]|]); try apply List.Forall_nil;
    try (apply p_str; first [assumption|apply unicode_ascii]); try apply p_bool; try apply p_int; try (now apply printable_float).
  - destruct (tagging_region cfg); [now apply p_str|now apply printable_box].
  - destruct (tracking_domain cfg) as [[[[w s] e] n]|]; [now apply printable_box|apply p_null].
  - destruct (parallel_processes cfg); constructor.
  - unfold dump_levels. destruct (levels cfg) as [l|]; [|apply p_str, unicode_ascii]. apply p_list. apply List.Forall_forall. intros x H. apply in_map_iff in H. destruct H as (z & <- & _). constructor.
Qed.
Lemma loads cwd is_file cfg : python_floats -> List.Forall unicode_text (texts cfg) ->
  exists m, as_yaml (dump cfg) = YMap m /\ from_yaml cwd is_file (to_string cfg) = validate cwd is_file m.
Proof.
  intros P T. unfold from_yaml, to_string. rewrite C107_yaml_reads_json by now apply printable_dump. cbn [bind]. eexists. split; reflexivity.
Qed.
Lemma basic_unicode u : basic_plane u -> unicode_text u.
Proof. intros H. eapply Forall_impl; [|exact H]. intros c Hc. cbv beta in Hc. unfold unicode. lia. Qed.
Definition cut (t : Z) : Z := t - t mod (60 * usec).
Definition cut_dates (cfg : config) : config :=
  mkconfig (filename_template cfg) (preprocessed_data_folder cfg) (calendar_name cfg) (tracking_direction cfg) (tagging_region cfg) (tracking_domain cfg) (output_folder cfg)
    (cut (preprocess_start_date cfg)) (cut (preprocess_end_date cfg)) (parallel_preprocess cfg) (parallel_processes cfg)
    (cut (tracking_start_date cfg)) (cut (tracking_end_date cfg)) (cut (tagging_start_date cfg)) (cut (tagging_end_date cfg))
    (input_frequency cfg) (timestep cfg) (output_frequency cfg) (level_type cfg) (levels cfg) (restart cfg) (periodic_boundary cfg) (kvf cfg)
    (level_layer_boundary cfg) (pressure_boundary_factor cfg) (pressure_boundary_offset cfg).
Lemma cut_le a b : a <= b -> cut a <= cut b.
Proof.
  intros H. unfold cut. rewrite !Z.mod_eq by (unfold usec; lia). pose proof (Z.div_le_mono a b (60 * usec) ltac:(unfold usec; lia) H). unfold usec in *. lia.
Qed.
(** Whatever is valid is read back, with the dates cut to the minute, from any working directory as long as the
    file of the tagging region is there. *)
Theorem C107_reads_back_to_the_minute cwd is_file cfg : python_floats -> http_urls -> valid is_file cfg ->
  List.Forall basic_plane (texts cfg) -> floats_finite cfg -> four_digit_years cfg ->
  from_yaml cwd is_file (to_string cfg) = OK (cut_dates cfg).
Proof.
  intros P U V T (F1 & F2 & F3) Y. 
  destruct (loads cwd is_file cfg P) as (m & Em & ->). { eapply Forall_impl; [|exact T]. apply basic_unicode. }
  destruct V as ((c & Hc) & Vd & Vl & Vf & Vo & Vr & Vt & Vi & Vq & D1 & D2 & D3). destruct (names_in _ _ Hc) as [Nin Nasc].
  unfold texts in T. inversion T as [|? ? T1 T']; subst. inversion T' as [|? ? T2 T'']; subst. inversion T'' as [|? ? T3 T3']; subst. inversion T3' as [|? ? T4 T4']; subst.
  inversion T4' as [|? ? T5 T5']; subst. inversion T5' as [|? ? T6 _]; subst.
  unfold four_digit_years, dates in Y. inversion Y as [|? ? Y1 Y']; subst. inversion Y' as [|? ? Y2 Y'']; subst. inversion Y'' as [|? ? Y3 Y3']; subst. inversion Y3' as [|? ? Y4 Y4']; subst.
  inversion Y4' as [|? ? Y5 Y5']; subst. inversion Y5' as [|? ? Y6 _]; subst. unfold class_of in *.
  assert (Ad : ascii_text (tracking_direction cfg) = true) by (destruct Vd as [<-|[<-|[]]]; reflexivity).
  assert (Al : ascii_text (level_type cfg) = true) by (destruct Vl as [<-|[<-|[]]]; reflexivity).
  set (cc := calendar_class (calendar_name cfg)) in *.
  assert (G : forall k v, In (k, v) (match dump cfg with JObj l => l | _ => [] end) -> get m k = Some (as_yaml v)).
  { unfold dump in Em |- *. cbn [as_yaml map] in Em. injection Em as <-. fold cc. cbn beta iota zeta. intros k v H. cbn [In] in H.
    repeat (destruct H as [H|H]; [injection H as <- <-; reflexivity|]). destruct H. }
  clear Em. unfold dump in G. cbn beta iota zeta in G. fold cc in G.
  assert (GD : forall k t, In (k, JStr (of_string (export_date cc t)))
     [("preprocess_start_date", JStr (of_string (export_date cc (preprocess_start_date cfg)))); ("preprocess_end_date", JStr (of_string (export_date cc (preprocess_end_date cfg))));
      ("tracking_start_date", JStr (of_string (export_date cc (tracking_start_date cfg)))); ("tracking_end_date", JStr (of_string (export_date cc (tracking_end_date cfg))));
      ("tagging_start_date", JStr (of_string (export_date cc (tagging_start_date cfg)))); ("tagging_end_date", JStr (of_string (export_date cc (tagging_end_date cfg))))] ->
      four_digit_year cc t -> read_date cc (get m k) = OK (cut t)).
  { intros k t H Ht. rewrite (G k (JStr (of_string (export_date cc t)))); [now apply back_date|]. do 20 right. exact H. }
  unfold validate.
  rewrite (G "calendar" (JStr (of_string (calendar_name cfg)))) by (cbn [In]; auto 30). unfold read_calendar. change (as_yaml (JStr ?u)) with (str u). rewrite back_literal by assumption. cbn [bind]. fold cc. cbv zeta.
  rewrite (GD "tracking_start_date" (tracking_start_date cfg)) by (assumption || (cbn [In]; auto 10)). cbn [bind].
  rewrite (GD "tracking_end_date" (tracking_end_date cfg)) by (assumption || (cbn [In]; auto 10)). cbn [bind].
  rewrite (GD "tagging_start_date" (tagging_start_date cfg)) by (assumption || (cbn [In]; auto 10)). cbn [bind].
  rewrite (GD "tagging_end_date" (tagging_end_date cfg)) by (assumption || (cbn [In]; auto 10)). cbn [bind].
  rewrite (GD "preprocess_start_date" (preprocess_start_date cfg)) by (assumption || (cbn [In]; auto 10)). cbn [bind].
  rewrite (GD "preprocess_end_date" (preprocess_end_date cfg)) by (assumption || (cbn [In]; auto 10)). cbn [bind].
  clear GD.
  erewrite (G "filename_template") by (cbn [In]; auto 30). cbn [need]. change (as_yaml (JStr (filename_template cfg))) with (str (filename_template cfg)). rewrite back_text by assumption. cbn [read_text bind].
  erewrite (G "preprocessed_data_folder") by (cbn [In]; auto 30). cbn [need]. change (as_yaml (JStr ?u)) with (str u). rewrite back_folder by assumption. cbn [bind].
  erewrite (G "tracking_direction") by (cbn [In]; auto 30). cbn [need]. change (as_yaml (JStr ?u)) with (str u). rewrite back_literal by assumption. cbn [bind].
  erewrite (G "tagging_region") by (cbn [In]; auto 30). cbn [need]. rewrite back_region by assumption. cbn [bind].
  erewrite (G "tracking_domain") by (cbn [In]; auto 30). cbn [optional]. rewrite back_domain by assumption. cbn [bind].
  erewrite (G "output_folder") by (cbn [In]; auto 30). cbn [need]. change (as_yaml (JStr ?u)) with (str u). rewrite back_path by assumption. cbn [bind].
  erewrite (G "parallel_preprocess") by (cbn [In]; auto 30). cbn [optional as_yaml read_bool bind].
  erewrite (G "parallel_processes") by (cbn [In]; auto 30). cbn [optional]. rewrite back_opt_int. cbn [bind].
  erewrite (G "input_frequency") by (cbn [In]; auto 30). cbn [need]. change (as_yaml (JStr ?u)) with (str u). rewrite back_frequency by assumption. cbn [bind].
  erewrite (G "timestep") by (cbn [In]; auto 30). cbn [need as_yaml read_int bind].
  erewrite (G "output_frequency") by (cbn [In]; auto 30). cbn [need]. change (as_yaml (JStr ?u)) with (str u). rewrite back_frequency by assumption. cbn [bind].
  erewrite (G "level_type") by (cbn [In]; auto 30). cbn [need]. change (as_yaml (JStr ?u)) with (str u). rewrite back_literal by assumption. cbn [bind].
  erewrite (G "levels") by (cbn [In]; auto 30). cbn [need]. rewrite back_levels. cbn [bind].
  erewrite (G "restart") by (cbn [In]; auto 30). cbn [need as_yaml read_bool bind].
  erewrite (G "periodic_boundary") by (cbn [In]; auto 30). cbn [need as_yaml read_bool bind].
  erewrite (G "kvf") by (cbn [In]; auto 30). cbn [need]. rewrite back_float by assumption. cbn [bind].
  erewrite (G "level_layer_boundary") by (cbn [In]; auto 30). cbn [optional as_yaml read_int bind].
  erewrite (G "pressure_boundary_factor") by (cbn [In]; auto 30). cbn [optional]. rewrite back_float by assumption. cbn [bind].
  erewrite (G "pressure_boundary_offset") by (cbn [In]; auto 30). cbn [optional]. rewrite back_float by assumption. cbn [bind].
  apply cut_le in D1, D2, D3.
  destruct (Z.ltb_spec (cut (tracking_end_date cfg)) (cut (tracking_start_date cfg))); [lia|]. destruct (Z.ltb_spec (cut (tagging_end_date cfg)) (cut (tagging_start_date cfg))); [lia|].
  destruct (Z.ltb_spec (cut (preprocess_end_date cfg)) (cut (preprocess_start_date cfg))); [lia|]. reflexivity.
Qed.
Lemma fullmatch_ascii alias s ds : fullmatch alias s = Some ds -> ascii_text ds = true.
Proof.
  revert ds. induction s as [|a s IH]; intros ds; cbn [fullmatch]; destruct (eq_ci _ alias); try (intros [= <-]; reflexivity); try discriminate.
  destruct (is_digit a) eqn:D; [|discriminate]. destruct (fullmatch alias s) as [d|]; [|discriminate]. intros [= <-]. cbn [ascii_text]. rewrite (IH d eq_refl), andb_true_r.
  unfold is_digit in D. apply andb_true_iff in D. destruct D as [_ D]. apply Nat.leb_le in D. unfold code. apply Z.ltb_lt. lia.
Qed.
Lemma fix_ascii s : ascii_text s = true -> ascii_text (fix_deprecated_frequency s) = true.
Proof.
  intros H. unfold fix_deprecated_frequency. assert (R : List.Forall (fun p => ascii_text (snd p) = true) deprecated_map) by (repeat constructor).
  induction R as [|[al re] l Hr _ IH]; cbn [fix_with]; [assumption|]. destruct (fullmatch al s) as [ds|] eqn:E; [|exact IH]. rewrite ascii_app, (fullmatch_ascii _ _ _ E). exact Hr.
Qed.
Lemma fix_frequency_twice u : fix_frequency (fix_frequency u) = fix_frequency u.
Proof.
  unfold fix_frequency. destruct (to_ascii u) as [s|] eqn:E; [|now rewrite E]. destruct (of_string_to_ascii u s E) as [_ A]. rewrite to_ascii_of_string by now apply fix_ascii.
  now rewrite C44_idempotent.
Qed.
Lemma bind_ok {A B} (r : res A) (f : A -> res B) b : bind r f = OK b -> exists a, r = OK a /\ f a = OK b.
Proof. destruct r as [a|e]; cbn [bind]; [|discriminate]. eauto. Qed.
Lemma read_literal_ok choices y s : read_literal choices y = OK s -> In s choices.
Proof.
  unfold read_literal. destruct y; try discriminate. destruct (to_ascii u) as [t|]; [|discriminate]. destruct (existsb (String.eqb t) choices) eqn:E; [|discriminate]. intros [= <-].
  apply existsb_exists in E. destruct E as (x & Hx & Q). apply String.eqb_eq in Q. now subst x.
Qed.
Lemma read_box_ok y w s e n : read_box y = OK (w, s, e, n) -> Config.valid_box (box_of w s e n).
Proof.
  unfold read_box. destruct y as [| | | | |l|]; try discriminate. destruct l as [|a [|b [|c [|d [|x l]]]]]; try discriminate. intros H.
  apply bind_ok in H. destruct H as (w' & _ & H). apply bind_ok in H. destruct H as (s' & _ & H). apply bind_ok in H. destruct H as (e' & _ & H). apply bind_ok in H. destruct H as (n' & _ & H).
  apply bind_ok in H. destruct H as (k & K & H). injection H as -> -> -> ->. destruct (Config.C42_boxes (box_of w s e n)) as [B _]. apply B in K. tauto.
Qed.
Lemma calendar_literal s : In s ["standard"; "gregorian"; "proleptic_gregorian"; "noleap"; "365_day"; "360_day"; "julian"; "all_leap"; "366_day"] -> exists c, Config.names s c.
Proof. intros H. unfold Config.names. cbn [In] in *. repeat (destruct H as [<-|H]; [eexists; auto 12|]). destruct H. Qed.

(** Every configuration that is accepted is valid: read from the working directory, its paths are absolute,
    its URL is in normal form, its boxes are on the globe, its frequencies are current, its dates are in order. *)
Theorem C107_accepted_are_valid cwd is_file m cfg : http_urls -> absolute_path cwd -> validate cwd is_file m = OK cfg -> valid is_file cfg.
Proof.
  intros U A H. unfold validate in H.
  repeat (apply bind_ok in H; let x := fresh "x" in let E := fresh "E" in destruct H as (x & E & H)).
  destruct (Z.ltb_spec x1 x0); [discriminate|]. destruct (Z.ltb_spec x3 x2); [discriminate|]. destruct (Z.ltb_spec x5 x4); [discriminate|].
  injection H as <-. unfold valid. cbn [calendar_name tracking_direction level_type preprocessed_data_folder output_folder tagging_region tracking_domain input_frequency output_frequency
    tracking_start_date tracking_end_date tagging_start_date tagging_end_date preprocess_start_date preprocess_end_date].
  assert (N : forall (A : Type) (f : yaml -> res A) o v, need f o = OK v -> exists y, f y = OK v) by (intros T f [y|] v; cbn; [eauto|discriminate]).
  repeat split; try assumption.
  - destruct (get m "calendar") as [y|]; cbn [read_calendar] in E; [apply calendar_literal; eapply read_literal_ok; eassumption|]. injection E as <-. apply calendar_literal. now left.
  - destruct (N _ _ _ _ E8) as (y & Q). eapply read_literal_ok, Q.
  - destruct (N _ _ _ _ E17) as (y & Q). eapply read_literal_ok, Q.
  - destruct (N _ _ _ _ E7) as (y & Q). unfold read_folder in Q. apply bind_ok in Q. destruct Q as (u & _ & Q). injection Q as <-.
    destruct (normal_url L u) as [v|] eqn:Ev; [exact (proj1 (U _ _ Ev))|now apply absolute_absolute].
  - destruct (N _ _ _ _ E11) as (y & Q). unfold read_path in Q. apply bind_ok in Q. destruct Q as (u & _ & Q). injection Q as <-. now apply absolute_absolute.
  - destruct (N _ _ _ _ E11) as (y & Q). unfold read_path in Q. apply bind_ok in Q. destruct Q as (u & _ & Q). injection Q as <-. now apply absolute_absolute.
  - destruct (N _ _ _ _ E9) as (y & Q). unfold read_region in Q. destruct y; try (apply bind_ok in Q; destruct Q as ([[[w s] e] n] & Q & R); injection R as <-; eapply read_box_ok, Q).
    destruct (is_file _) eqn:Ef; [|discriminate]. injection Q as <-. split; [now apply absolute_absolute|assumption].
  - destruct (get m "tracking_domain") as [y|]; cbn [optional] in E10; [|now injection E10 as <-].
    destruct y; try (unfold read_opt_box in E10; apply bind_ok in E10; destruct E10 as ([[[w s] e] n] & Q & R); injection R as <-; eapply read_box_ok, Q). now injection E10 as <-.
  - destruct (N _ _ _ _ E14) as (y & Q). unfold read_frequency in Q. apply bind_ok in Q. destruct Q as (u & _ & Q). injection Q as <-. apply fix_frequency_twice.
  - destruct (N _ _ _ _ E16) as (y & Q). unfold read_frequency in Q. apply bind_ok in Q. destruct Q as (u & _ & Q). injection Q as <-. apply fix_frequency_twice.
Qed.
Lemma cut_whole t : t mod (60 * usec) = 0 -> cut t = t.
Proof. unfold cut. lia. Qed.
(** the intended statement: what has been accepted comes back as it was, if it has no seconds, no characters beyond
    the basic plane and no infinite numbers *)
Theorem C107_reads_back_partial cwd cwd' is_file m cfg : python_floats -> http_urls -> absolute_path cwd -> validate cwd is_file m = OK cfg ->
  List.Forall basic_plane (texts cfg) -> floats_finite cfg -> four_digit_years cfg -> whole_minutes cfg ->
  from_yaml cwd' is_file (to_string cfg) = OK cfg.
Proof.
  intros P U A H T Ff Y M. rewrite C107_reads_back_to_the_minute; try assumption; [|eapply C107_accepted_are_valid; eassumption].
  unfold whole_minutes, dates in M. inversion M as [|? ? Y1 Y']; subst. inversion Y' as [|? ? Y2 Y'']; subst. inversion Y'' as [|? ? Y3 Y3']; subst. inversion Y3' as [|? ? Y4 Y4']; subst.
  inversion Y4' as [|? ? Y5 Y5']; subst. inversion Y5' as [|? ? Y6 _]; subst. unfold cut_dates. rewrite !cut_whole by assumption. now destruct cfg.
Qed.
(** two configurations with the same text (as in the metadata of two output files) are the same up to the seconds *)
Theorem C107_same_text_same_configuration is_file cfg cfg' : python_floats -> http_urls -> valid is_file cfg -> valid is_file cfg' ->
  List.Forall basic_plane (texts cfg) -> List.Forall basic_plane (texts cfg') -> floats_finite cfg -> floats_finite cfg' -> four_digit_years cfg -> four_digit_years cfg' ->
  to_string cfg = to_string cfg' <-> cut_dates cfg = cut_dates cfg'.
Proof.
  intros P U V V' T T' Ff Ff' Y Y'. 
  pose proof (C107_reads_back_to_the_minute (mkpath 1 []) is_file cfg P U V T Ff Y) as R. pose proof (C107_reads_back_to_the_minute (mkpath 1 []) is_file cfg' P U V' T' Ff' Y') as R'.
  split; intros E.
  - rewrite E in R. congruence.
  - assert (X : forall c t, four_digit_year c t -> export_date c (cut t) = export_date c t).
    { intros c t _. unfold export_date, strf_day, date_of, day_of, second_of_day, cut. pose proof (Z.div_mod t (60 * usec) ltac:(unfold usec; lia)) as D.
      assert (D1 : (t - t mod (60 * usec)) / day_us = t / day_us).
      { unfold day_us. replace (86400 * usec) with (60 * usec * 1440) by ring. rewrite <- !(Z.div_div _ (60 * usec) 1440) by (unfold usec; lia). f_equal. replace (t - t mod (60 * usec)) with (t / (60 * usec) * (60 * usec)) by lia.
        apply Z.div_mul. unfold usec. lia. }
      rewrite D1. set (s := (t mod day_us) / usec). set (s' := ((t - t mod (60 * usec)) mod day_us) / usec).
      assert (S : s' / 60 = s / 60).
      { unfold s, s'. rewrite !Z.div_div by (unfold usec; lia). rewrite (Z.mul_comm usec 60). assert (M : forall x, x mod day_us = x - day_us * (x / day_us)) by (intros; apply Z.mod_eq; unfold day_us, usec; lia). rewrite !M, D1.
        replace (t - t mod (60 * usec) - day_us * (t / day_us)) with ((t / (60 * usec) - 1440 * (t / day_us)) * (60 * usec)) by (unfold day_us; lia).
        rewrite Z.div_mul by (unfold usec; lia). replace (t - day_us * (t / day_us)) with (t + (- 1440 * (t / day_us)) * (60 * usec)) by (unfold day_us; lia).
        rewrite Z.div_add by (unfold usec; lia). lia. }
      replace (s' / 3600) with (s / 3600) by (change 3600 with (60 * 60); rewrite <- !Z.div_div by lia; now rewrite S). now rewrite S. }
    assert (C : forall c, four_digit_years c -> to_string (cut_dates c) = to_string c).
    { intros c Yc. unfold four_digit_years, dates in Yc. inversion Yc as [|? ? Y1 Y2]; subst. inversion Y2 as [|? ? Y3 Y4]; subst. inversion Y4 as [|? ? Y5 Y6]; subst. inversion Y6 as [|? ? Y7 Y8]; subst.
      inversion Y8 as [|? ? Y9 Y10]; subst. inversion Y10 as [|? ? Y11 _]; subst. unfold to_string, dump, cut_dates. 
      cbn [filename_template preprocessed_data_folder calendar_name tracking_direction tagging_region tracking_domain output_folder preprocess_start_date preprocess_end_date parallel_preprocess parallel_processes
        tracking_start_date tracking_end_date tagging_start_date tagging_end_date input_frequency timestep output_frequency level_type levels restart periodic_boundary kvf level_layer_boundary
        pressure_boundary_factor pressure_boundary_offset]. unfold class_of in *. rewrite !X by assumption. reflexivity. }
    rewrite <- (C cfg Y), <- (C cfg' Y'), E. reflexivity.
Qed.
(** characters beyond the basic plane: the text comes back longer, if the file is accepted at all *)
Theorem C107_other_planes_refuted cwd is_file cfg : python_floats -> List.Forall unicode_text (texts cfg) ->
  (exists c, In c (filename_template cfg) /\ 65536 <= c) -> from_yaml cwd is_file (to_string cfg) <> OK cfg.
Proof.
  intros P T (c & Hc & Lc) E. destruct (loads cwd is_file cfg P T) as (m & Em & Q). rewrite Q in E. clear Q.
  assert (G : get m "filename_template" = Some (str (filename_template cfg))) by (unfold dump in Em; cbn [as_yaml map] in Em; injection Em as <-; reflexivity).
  unfold validate in E. repeat (apply bind_ok in E; let x := fresh "x" in let Q := fresh "Q" in destruct E as (x & Q & E)).
  destruct (Z.ltb x1 x0); [discriminate|]. destruct (Z.ltb x3 x2); [discriminate|]. destruct (Z.ltb x5 x4); [discriminate|].
  rewrite G in Q6. cbn in Q6. injection Q6 as Q6. apply (f_equal (fun r => match r with OK c => filename_template c | Err _ => [] end)) in E. cbn in E. rewrite <- Q6 in E.
  assert (S : forall u, (List.length u <= List.length (surrogated u))%nat /\ ((exists c, In c u /\ 65536 <= c) -> (List.length u < List.length (surrogated u))%nat)).
  { clear. induction u as [|a u [IH1 IH2]]; [split; [cbn; lia|intros (c & [] & _)]|]. change (surrogated (a :: u)) with (surrogates a ++ surrogated u). rewrite app_length. cbn [List.length]. unfold surrogates.
    destruct (Z.ltb_spec a 65536); cbn [List.length]; (split; [lia|]); [|intros; lia]. intros (c & [->|Hc] & Lc); [lia|]. assert (List.length u < List.length (surrogated u))%nat by (apply IH2; eauto). lia. }
  destruct (S (filename_template cfg)) as [_ S2]. specialize (S2 (ex_intro _ c (conj Hc Lc))). rewrite E in S2. lia.
Qed.
(** a number that is not finite is written as null, and that is not accepted *)
Theorem C107_infinite_refuted cwd is_file cfg : python_floats -> List.Forall unicode_text (texts cfg) -> ~ finite (kvf cfg) ->
  forall cfg', from_yaml cwd is_file (to_string cfg) <> OK cfg'.
Proof.
  intros P T N cfg' E. destruct (loads cwd is_file cfg P T) as (m & Em & Q). rewrite Q in E. clear Q.
  assert (G : get m "kvf" = Some (as_yaml (dump_float (kvf cfg)))) by (unfold dump in Em; cbn [as_yaml map] in Em; injection Em as <-; reflexivity).
  unfold validate in E. repeat (apply bind_ok in E; let x := fresh "x" in let Q := fresh "Q" in destruct E as (x & Q & E)).
  rewrite G in Q21. unfold dump_float in Q21. destruct (value L (kvf cfg)) as [r| |] eqn:V; try discriminate. apply N. now exists r.
Qed.
(** a date with seconds comes back without them *)
Theorem C107_seconds_refuted cwd is_file cfg : python_floats -> http_urls -> valid is_file cfg ->
  List.Forall basic_plane (texts cfg) -> floats_finite cfg -> four_digit_years cfg -> ~ whole_minutes cfg -> from_yaml cwd is_file (to_string cfg) <> OK cfg.
Proof.
  intros P U V T Ff Y N E. rewrite C107_reads_back_to_the_minute in E by assumption. apply N. injection E as E.
  assert (X : forall t, cut t = t -> t mod (60 * usec) = 0) by (unfold cut; intros; lia).
  unfold whole_minutes, dates. unfold cut_dates in E.
  repeat (apply List.Forall_cons; [apply X; match goal with |- cut (?f cfg) = _ => apply (f_equal f) in E; exact E end|]). apply List.Forall_nil.
Qed.
End Model.

(** ** A concrete case *)
(** numbers with nine decimals (None: nan) *)
From Coq Require Import DecimalString DecimalZ.
Fixpoint before_e (s : string) : string := match s with EmptyString => EmptyString | String a s => if Ascii.eqb a "e" then EmptyString else String a (before_e s) end.
Definition ex_read (s : string) : option (option Z) :=
  if String.eqb s "nan" then Some None
  else if String.eqb s "0.72878581" then Some (Some 728785810) else if String.eqb s "7438.803223" then Some (Some 7438803223000)
  else match NilZero.int_of_string (before_e s) with Some d => Some (Some (Z.of_int d)) | None => None end.
Definition ex_library : library :=
  mklibrary (option Z) (fun o => match o with Some z => Fin (IZR z / 1000000000)%R | None => NaN end)
    (fun o => match o with Some z => (NilZero.string_of_int (Z.to_int z) ++ "e-09")%string | None => "nan" end)
    ex_read (fun z => Some (Some (z * 1000000000)))
    (fun u => match u with 104 :: 116 :: 116 :: 112 :: _ => Some u | _ => None end).
Lemma ex_urls : http_urls ex_library.
Proof. intros u v. cbn [normal_url ex_library]. intros H. assert (E : u = v /\ exists w, u = 104 :: w).
  { destruct u as [|a u]; [discriminate|]. destruct (Z.eq_dec a 104) as [->|N]; [|destruct a as [|p|p]; try discriminate; do 7 (destruct p as [p|p|]; try discriminate); congruence].
    split; [|eauto]. destruct u as [|b u]; [discriminate|]. repeat match type of H with (match ?x with _ => _ end) = _ => destruct x; try discriminate end. congruence. }
  destruct E as [-> [w ->]]. split; [exact H|]. intros w'. discriminate. Qed.
Lemma before_e_int d r : before_e (NilZero.string_of_int d ++ String "e" r) = NilZero.string_of_int d.
Proof.
  assert (U : forall u, before_e (NilEmpty.string_of_uint u ++ String "e" r) = NilEmpty.string_of_uint u).
  { induction u; [reflexivity| | | | | | | | | |]; cbn [NilEmpty.string_of_uint append before_e]; rewrite IHu; reflexivity. }
  assert (V : forall u, before_e (NilZero.string_of_uint u ++ String "e" r) = NilZero.string_of_uint u) by (intros u; destruct u; try reflexivity; apply U).
  destruct d as [u|u]; cbn [NilZero.string_of_int]; [apply V|]. cbn [append before_e]. rewrite V. reflexivity.
Qed.
Lemma ex_floats : python_floats ex_library.
Proof.
  intros x (r & E). destruct x as [z|]; [|discriminate]. clear E r. cbn [repr float_of_text ex_library].
  assert (A : forall s, all_float (s ++ "e-09") = (all_float s)) by (induction s as [|a s IH]; [reflexivity|]; cbn [append all_float]; now rewrite IH).
  assert (P : forall s, has_point (s ++ "e-09") = true) by (induction s as [|a s IH]; [reflexivity|]; cbn [append has_point]; rewrite IH; apply orb_true_r).
  assert (U : forall u, all_float (NilEmpty.string_of_uint u) = true) by (induction u; [reflexivity| | | | | | | | | |]; cbn [NilEmpty.string_of_uint all_float]; rewrite IHu; reflexivity).
  assert (V : forall u, all_float (NilZero.string_of_uint u) = true) by (intros u; destruct u; try reflexivity; apply U).
  split; [split|].
  - rewrite A. destruct (Z.to_int z) as [u|u]; cbn [NilZero.string_of_int all_float]; rewrite V; reflexivity.
  - apply P.
  - unfold ex_read. 
    assert (N : forall w, has_point w = true -> all_float w = true -> before_e w <> before_e (NilZero.string_of_int (Z.to_int z) ++ "e-09") -> String.eqb (NilZero.string_of_int (Z.to_int z) ++ "e-09") w = false).
    { intros w _ _ H. destruct (String.eqb_spec (NilZero.string_of_int (Z.to_int z) ++ "e-09") w) as [<-|_]; [congruence|reflexivity]. }
    assert (I : NilZero.int_of_string (NilZero.string_of_int (Z.to_int z)) <> None).
    { pose proof (resolve_int z) as R. unfold resolve in R. destruct (NilZero.int_of_string (NilZero.string_of_int (Z.to_int z))); [discriminate|]. 
      repeat match type of R with (if ?b then _ else _) = _ => destruct b; try discriminate end. }
    change ("e-09") with (String "e" "-09") in N |- *. rewrite before_e_int in N.
    assert (X0 : String.eqb (NilZero.string_of_int (Z.to_int z) ++ String "e" "-09") "nan" = false).
    { destruct (String.eqb_spec (NilZero.string_of_int (Z.to_int z) ++ String "e" "-09") "nan") as [Q|_]; [|reflexivity]. exfalso. pose proof (P (NilZero.string_of_int (Z.to_int z))) as X.
      change ("e-09") with (String "e" "-09") in X. rewrite Q in X. discriminate. }
    rewrite X0. rewrite (N "0.72878581"); [|reflexivity|reflexivity|intros Q; apply I; rewrite <- Q; reflexivity].
    rewrite (N "7438.803223"); [|reflexivity|reflexivity|intros Q; apply I; rewrite <- Q; reflexivity].
    rewrite before_e_int. pose proof (resolve_int z) as R. unfold resolve in R. repeat match type of R with (if ?b then _ else _) = _ => destruct b; try discriminate end.
    destruct (NilZero.int_of_string (NilZero.string_of_int (Z.to_int z))); [|destruct (float_pattern _); discriminate]. now injection R as ->.
Qed.

Definition ex_cwd : path := mkpath 1 [of_string "home"; of_string "me"].
Definition ex_entry (k v : string) : text * yaml := (of_string k, YStr (of_string v)).
Definition ex_settings : list (text * yaml) :=
  [ex_entry "calendar" "360_day"; (of_string "filename_template", YStr (of_string "data/" ++ 233 :: of_string "_{variable}.nc"));
   ex_entry "preprocessed_data_folder" "../pre"; ex_entry "output_folder" "/data//out/"; ex_entry "tracking_direction" "backward";
   ex_entry "tracking_start_date" (text_minute 2021 2 30 0 0); ex_entry "tracking_end_date" (text_minute 2021 7 1 6 30);
   ex_entry "tagging_start_date" (text_minute 2021 2 30 0 0); ex_entry "tagging_end_date" (text_minute 2021 7 1 6 30);
   ex_entry "preprocess_start_date" (text_minute 2021 2 30 0 0); ex_entry "preprocess_end_date" (text_minute 2021 7 1 6 30);
   (of_string "tagging_region", YList [YInt 170; YInt (-10); YInt (-170); YInt 10]);
   ex_entry "input_frequency" "1H"; ex_entry "output_frequency" "1D"; (of_string "timestep", YInt 600); ex_entry "level_type" "model_levels";
   (of_string "levels", YList [YInt 20; YInt 137]); (of_string "restart", YBool false); (of_string "periodic_boundary", YBool true); (of_string "kvf", YInt 3)].
Lemma ex_dates : exists t1 t2, cftime_from_iso Day360 (text_minute 2021 2 30 0 0) = OK t1 /\ cftime_from_iso Day360 (text_minute 2021 7 1 6 30) = OK t2 /\ t1 <= t2 /\
  t1 mod (60 * usec) = 0 /\ t2 mod (60 * usec) = 0 /\ four_digit_year Day360 t1 /\ four_digit_year Day360 t2.
Proof.
  assert (X1 : exists_day Day360 2021 7 1) by (apply exists_day_iff; [lia|lia|eexists; reflexivity]).
  assert (X3 : exists_day Day360 2021 2 30) by (apply exists_day_iff; [lia|lia|eexists; reflexivity]).
  assert (M : forall y m d h mi s k, (1 <= y <= 9999)%Z -> (1 <= m <= 12)%Z -> day_index Day360 y m d = Some k ->
     make_time Day360 y m d h mi s = OK ((days_before_year Day360 y + zsum (firstn (Z.to_nat (m - 1)) (month_days Day360 y)) + k - epoch_day Day360) * day_us + (h * 3600 + mi * 60 + s) * usec)%Z).
  { intros y m d h mi s k Hy Hm E. unfold make_time. rewrite E. destruct (Z.ltb_spec y 1); [lia|reflexivity]. }
  assert (P1 := parse_minute Day360 2021 7 1 6 30 ltac:(lia) ltac:(lia) ltac:(lia) ltac:(lia) ltac:(lia)).
  assert (P3 := parse_minute Day360 2021 2 30 0 0 ltac:(lia) ltac:(lia) ltac:(lia) ltac:(lia) ltac:(lia)). cbn [Z.leb Z.compare Pos.compare Pos.compare_cont andb] in P1, P3.
  rewrite (M 2021 7 1 6 30 0 0)%Z in P1 by (lia || reflexivity). rewrite (M 2021 2 30 0 0 0 29)%Z in P3 by (lia || reflexivity).
  assert (Z1 : zsum (firstn (Z.to_nat (7 - 1)) (month_days Day360 2021)) = 180%Z) by reflexivity. assert (Z2 : zsum (firstn (Z.to_nat (2 - 1)) (month_days Day360 2021)) = 30%Z) by reflexivity.
  rewrite Z1 in P1. rewrite Z2 in P3. clear M Z1 Z2.
  destruct (C42_reads_dates Day360 2021 2 30 0 0 0) as (A1 & _ & E1); try lia. destruct A1 as (t1 & Et1 & D1 & _); [repeat split; auto; lia|]. rewrite <- E1 in Et1.
  destruct (C42_reads_dates Day360 2021 7 1 6 30 0) as (A2 & _ & E2); try lia. destruct A2 as (t2 & Et2 & D2 & _); [repeat split; auto; lia|]. rewrite <- E2 in Et2.
  clear E1 E2 X1 X3. generalize dependent (days_before_year Day360 2021). intros n P1 P3. generalize dependent (epoch_day Day360). intros e P1 P3.
  assert (Q1 : t1 = (n + 30 + 29 - e) * day_us + (0 * 3600 + 0 * 60 + 0) * usec) by congruence. assert (Q2 : t2 = (n + 180 + 0 - e) * day_us + (6 * 3600 + 30 * 60 + 0) * usec) by congruence.
  exists t1, t2. split; [assumption|]. split; [assumption|]. clear P1 P3 Et1 Et2. split; [subst t1 t2; unfold day_us, usec; lia|]. split; [|split; [|split; [eexists _, _, _; split; [exact D1|lia]|eexists _, _, _; split; [exact D2|lia]]]].
  - rewrite Q1. replace (_ + _) with ((n + 30 + 29 - e) * 1440 * (60 * usec)) by (unfold day_us; ring). apply Z.mod_mul. unfold usec. lia.
  - rewrite Q2. replace (_ + _) with (((n + 180 + 0 - e) * 1440 + 390) * (60 * usec)) by (unfold day_us; ring). apply Z.mod_mul. unfold usec. lia.
Qed.
Definition ex_cfg (t1 t2 : Z) : config ex_library := mkconfig ex_library (of_string "data/" ++ 233 :: of_string "_{variable}.nc") (Local (mkpath 1 [of_string "home"; of_string "me"; of_string ".."; of_string "pre"])) "360_day" "backward"
    (Box ex_library (Some 170000000000) (Some (-10000000000)) (Some (-170000000000)) (Some 10000000000)) None (mkpath 1 [of_string "data"; of_string "out"]) t1 t2 false None t1 t2 t1 t2
    (of_string "1h") 600 (of_string "1D") "model_levels" (Some [20; 137]) false true (Some 3000000000) 111 (Some 728785810) (Some 7438803223000).
Lemma ex_box : read_box ex_library (YList [YInt 170; YInt (-10); YInt (-170); YInt 10]) = OK (Some 170000000000, Some (-10000000000), Some (-170000000000), Some 10000000000).
Proof.
  unfold read_box. cbn [read_float ex_library float_of_int some_float bind]. 
    destruct (Config.C42_boxes (box_of ex_library (Some 170000000000) (Some (-10000000000)) (Some (-170000000000)) (Some 10000000000))) as [B _].
    destruct (B (box_of ex_library (Some 170000000000) (Some (-10000000000)) (Some (-170000000000)) (Some 10000000000))) as [_ B2].
    change (170 * 1000000000) with 170000000000. change (-10 * 1000000000) with (-10000000000). change (-170 * 1000000000) with (-170000000000). change (10 * 1000000000) with 10000000000.
    rewrite B2; [reflexivity|]. split; [reflexivity|]. unfold box_of. cbn [value ex_library]. eexists _, _, _, _. split; [reflexivity|]. lra.
Qed.
Lemma bind_step {A B} (r : res A) (a : A) (f : A -> res B) c : r = OK a -> f a = OK c -> bind r f = OK c.
Proof. intros -> H. exact H. Qed.
Lemma ex_accepted t1 t2 : cftime_from_iso Day360 (text_minute 2021 2 30 0 0) = OK t1 -> cftime_from_iso Day360 (text_minute 2021 7 1 6 30) = OK t2 -> t1 <= t2 ->
  validate ex_library ex_cwd (fun _ => false) ex_settings = OK (ex_cfg t1 t2).
Proof.
  intros P3 P1 L12.
  assert (RD : forall t s o, o = Some (YStr (of_string s)) -> ascii_text s = true -> cftime_from_iso Day360 s = OK t -> read_date Day360 o = OK t).
  { intros t s o -> A H. unfold read_date. now rewrite to_ascii_of_string. }
  assert (RR : forall o, o = Some (YList [YInt 170; YInt (-10); YInt (-170); YInt 10]) -> need (read_region ex_library ex_cwd (fun _ => false)) o = OK (tagging_region _ (ex_cfg t1 t2))).
  { intros o ->. cbn [need]. unfold read_region. rewrite ex_box. reflexivity. }
  assert (CC : calendar_class "360_day" = Day360) by (vm_compute; reflexivity).
  unfold validate. generalize dependent Day360. intros d P3 P1 RD CC.
  Ltac value v := eapply (bind_step _ v); [vm_compute; reflexivity|cbv beta].
  value "360_day". cbv zeta. rewrite CC. clear CC.
  eapply (bind_step _ t1); [apply (RD t1 (text_minute 2021 2 30 0 0)); [vm_compute; reflexivity|vm_compute; reflexivity|exact P3]|cbv beta].
  eapply (bind_step _ t2); [apply (RD t2 (text_minute 2021 7 1 6 30)); [vm_compute; reflexivity|vm_compute; reflexivity|exact P1]|cbv beta].
  eapply (bind_step _ t1); [apply (RD t1 (text_minute 2021 2 30 0 0)); [vm_compute; reflexivity|vm_compute; reflexivity|exact P3]|cbv beta].
  eapply (bind_step _ t2); [apply (RD t2 (text_minute 2021 7 1 6 30)); [vm_compute; reflexivity|vm_compute; reflexivity|exact P1]|cbv beta].
  eapply (bind_step _ t1); [apply (RD t1 (text_minute 2021 2 30 0 0)); [vm_compute; reflexivity|vm_compute; reflexivity|exact P3]|cbv beta].
  eapply (bind_step _ t2); [apply (RD t2 (text_minute 2021 7 1 6 30)); [vm_compute; reflexivity|vm_compute; reflexivity|exact P1]|cbv beta].
  value (filename_template _ (ex_cfg t1 t2)). value (preprocessed_data_folder _ (ex_cfg t1 t2)). value "backward".
  eapply (bind_step _ (tagging_region _ (ex_cfg t1 t2))); [apply RR; vm_compute; reflexivity|cbv beta].
  value (tracking_domain _ (ex_cfg t1 t2)). value (output_folder _ (ex_cfg t1 t2)). value false. value (@None Z). value (of_string "1h"). value 600. value (of_string "1D").
  value "model_levels". value (Some [20; 137]). value false. value true. value (kvf _ (ex_cfg t1 t2)). value 111.
  value (pressure_boundary_factor _ (ex_cfg t1 t2)). value (pressure_boundary_offset _ (ex_cfg t1 t2)).
  destruct (Z.ltb_spec t2 t1); [lia|]. reflexivity.
Qed.
Example C107_case : exists cfg, validate ex_library ex_cwd (fun _ => false) ex_settings = OK cfg /\
  python_floats ex_library /\ http_urls ex_library /\ absolute_path ex_cwd /\ List.Forall basic_plane (texts _ cfg) /\ floats_finite _ cfg /\ four_digit_years _ cfg /\ whole_minutes _ cfg /\
  output_folder _ cfg = mkpath 1 [of_string "data"; of_string "out"] /\ preprocessed_data_folder _ cfg = Local (mkpath 1 [of_string "home"; of_string "me"; of_string ".."; of_string "pre"]) /\
  input_frequency _ cfg = of_string "1h" /\ from_yaml ex_library (mkpath 1 []) (fun _ => false) (to_string _ cfg) = OK cfg.
Proof.
  destruct ex_dates as (t1 & t2 & P3 & P1 & L12 & W1 & W2 & Y1 & Y2). pose proof (ex_accepted t1 t2 P3 P1 L12) as E. exists (ex_cfg t1 t2). 
  assert (A : absolute_path ex_cwd).
  { split; [now left|]. cbn [parts ex_cwd]. assert (Q : forall q, existsb (Z.eqb slash) q = false -> ~ In slash q).
    { intros q Hq Hi. assert (existsb (Z.eqb slash) q = true) by (apply existsb_exists; exists slash; split; [assumption|apply Z.eqb_refl]). congruence. }
    apply List.Forall_cons; [split; [discriminate|split; [discriminate|now apply Q]]|]. apply List.Forall_cons; [split; [discriminate|split; [discriminate|now apply Q]]|]. apply List.Forall_nil. }
  assert (T : List.Forall basic_plane (texts _ (ex_cfg t1 t2))).
  { assert (Q : forall u, forallb (fun c => Z.leb 0 c && Z.ltb c 65536)%bool u = true -> basic_plane u).
    { intros u Hu. apply List.Forall_forall. intros k Hk. rewrite forallb_forall in Hu. specialize (Hu k Hk). apply andb_true_iff in Hu. destruct Hu as [H1 H2]. apply Z.leb_le in H1. apply Z.ltb_lt in H2. lia. }
    unfold texts. cbn [filename_template preprocessed_data_folder tagging_region output_folder input_frequency output_frequency ex_cfg]. repeat (apply List.Forall_cons; [apply Q; reflexivity|]). apply List.Forall_nil. }
  assert (Ff : floats_finite _ (ex_cfg t1 t2)) by (repeat split; eexists; reflexivity).
  assert (Y : four_digit_years _ (ex_cfg t1 t2)) by (unfold four_digit_years, dates, class_of; cbn; repeat constructor; assumption).
  assert (W : whole_minutes _ (ex_cfg t1 t2)) by (unfold whole_minutes, dates; cbn [ex_cfg preprocess_start_date preprocess_end_date tracking_start_date tracking_end_date tagging_start_date tagging_end_date]; repeat constructor; assumption).
  repeat (split; [assumption||exact ex_floats||exact ex_urls||reflexivity|]).
  eapply C107_reads_back_partial; [exact ex_floats|exact ex_urls|exact A|exact E|assumption|assumption|assumption|assumption].
Qed.

(** ** C108: what the documentation of the settings says *)
Lemma split_nonempty u : split u <> [].
Proof. destruct u as [|c u]; cbn [split]; [discriminate|]. destruct (Z.eqb c slash); [discriminate|]. destruct (split u); discriminate. Qed.
Lemma split_slash u v : split (u ++ slash :: v) = split u ++ split v.
Proof.
  induction u as [|c u IH]; [reflexivity|]. cbn [List.app split]. rewrite IH. destruct (Z.eqb c slash); [reflexivity|].
  destruct (split u) eqn:E; [now destruct (split_nonempty u)|]. reflexivity.
Qed.
(** Relative paths are taken from the working directory; absolute ones are as they are written, but for a slash
    at the end. *)
Theorem C108_paths_partial cwd : absolute_path cwd ->
  (forall u, (forall w, u <> slash :: w) -> read_path cwd (YStr u) = OK (mkpath (root cwd) (parts cwd ++ parts (path_of u)))) /\
  (forall l, l <> [] -> List.Forall (fun q => q <> [] /\ q <> [46] /\ ~ In slash q) l ->
     read_path cwd (YStr (slash :: join l)) = OK (mkpath 1 l) /\ read_path cwd (YStr (slash :: join l ++ [slash])) = OK (mkpath 1 l) /\ parts (path_of (join l)) = l).
Proof.
  intros A. split.
  - intros u N. unfold read_path. cbn [read_text bind]. unfold absolute. destruct (root (path_of u)) as [|k] eqn:E; [reflexivity|]. exfalso. cbn [path_of root] in E. unfold root_of in E.
    destruct u as [|c u]; [discriminate|]. cbn [leading] in E. destruct (Z.eqb_spec c slash) as [->|_]; [now destruct (N u)|discriminate].
  - intros l Nl Hl. pose proof (split_join l Hl) as SJ. pose proof (leading_join l Hl) as LJ.
    assert (LS : forall v, leading (join l ++ v) = O).
    { intros v. destruct (join l) as [|c w] eqn:E; [exfalso|cbn [List.app leading] in *; destruct (Z.eqb c slash); [discriminate|reflexivity]].
      destruct l as [|q l]; [congruence|]. inversion Hl as [|? ? (Hq & _) _]; subst. destruct q; [congruence|]. destruct l; discriminate. }
    repeat split.
    + unfold read_path. cbn [read_text bind]. unfold absolute, path_of, root_of. cbn [root parts leading split]. change (Z.eqb slash slash) with true. cbv iota. rewrite LJ. cbn [filter is_part]. now rewrite SJ.
    + unfold read_path. cbn [read_text bind]. unfold absolute, path_of, root_of. cbn [root parts leading split]. change (Z.eqb slash slash) with true. cbv iota. rewrite LS. cbn [filter is_part].
      rewrite split_slash, filter_app, SJ. cbn [split filter is_part]. now rewrite app_nil_r.
    + exact SJ.
Qed.
(** "~/x", as in the examples of the documentation, is a folder named ~ in the working directory; it is in the home
    directory only if that is such a folder itself. *)
Theorem C108_home_refuted cwd u : absolute_path cwd ->
  let home_text := of_string "~" ++ slash :: u in
  read_path cwd (YStr home_text) = OK (mkpath (root cwd) (parts cwd ++ of_string "~" :: parts (path_of u))) /\
  forall home, read_path cwd (YStr home_text) = OK (mkpath (root home) (parts home ++ parts (path_of u))) -> parts home = parts cwd ++ [of_string "~"].
Proof.
  intros A. cbv zeta. destruct (C108_paths_partial cwd A) as [R _]. rewrite R by (cbn; intros w; discriminate).
  assert (E : parts (path_of (of_string "~" ++ slash :: u)) = of_string "~" :: parts (path_of u)) by (cbn [path_of parts]; rewrite split_slash, filter_app; reflexivity).
  rewrite E. split; [reflexivity|]. intros home H0. assert (H : parts cwd ++ [of_string "~"] ++ parts (path_of u) = parts home ++ parts (path_of u)) by (now injection H0). rewrite app_assoc in H. apply app_inv_tail in H. now symmetry.
Qed.
(** the documented shorthand "all" is not accepted; "All" is *)
Theorem C108_all_levels_refuted L cwd is_file m cfg : get m "levels" = Some (YStr (of_string "all")) -> validate L cwd is_file m <> OK cfg.
Proof.
  intros G E. unfold validate in E. repeat (apply bind_ok in E; let x := fresh "x" in let Q := fresh "Q" in destruct E as (x & Q & E)). rewrite G in Q18. discriminate.
Qed.
Theorem C108_levels L cwd is_file m cfg : validate L cwd is_file m = OK cfg ->
  (get m "levels" = Some (YStr (of_string "All")) /\ levels _ cfg = None) \/ exists l, get m "levels" = Some (YList (map YInt l)) /\ levels _ cfg = Some l.
Proof.
  intros E. unfold validate in E. repeat (apply bind_ok in E; let x := fresh "x" in let Q := fresh "Q" in destruct E as (x & Q & E)).
  repeat match type of E with (if ?b then _ else _) = _ => destruct b; [discriminate|] end. injection E as <-. cbn [levels]. clear - Q18.
  destruct (get m "levels") as [y|]; [|discriminate]. cbn [need] in Q18. destruct y as [| | | |u|l|]; try discriminate.
  - left. unfold read_levels in Q18. apply bind_ok in Q18. destruct Q18 as (s & R & Q). injection Q as <-. cbn in R. destruct (to_ascii u) as [t|] eqn:T; [|discriminate].
    destruct (of_string_to_ascii u t T) as [<- _]. destruct (String.eqb_spec t "All") as [->|_]; [split; reflexivity|discriminate].
  - right. cbn [read_levels] in Q18. apply bind_ok in Q18. destruct Q18 as (zs & R & Q). injection Q as <-. exists zs. split; [|reflexivity]. do 2 f_equal. clear - R.
    revert zs R. induction l as [|y l IH]; intros zs R; cbn [read_ints] in R; [injection R as <-; reflexivity|]. apply bind_ok in R. destruct R as (z & Rz & R). apply bind_ok in R. destruct R as (zs' & Rs & R).
    injection R as <-. cbn [map]. rewrite <- (IH zs' Rs). destruct y; try discriminate. now injection Rz as ->.
Qed.
Example C108_case : absolute_path ex_cwd /\
  read_path ex_cwd (YStr (of_string "~/floodcase_202107/output_data")) = OK (mkpath 1 [of_string "home"; of_string "me"; of_string "~"; of_string "floodcase_202107"; of_string "output_data"]) /\
  read_path ex_cwd (YStr (of_string "./out//x/")) = OK (mkpath 1 [of_string "home"; of_string "me"; of_string "out"; of_string "x"]).
Proof.
  split; [|split; reflexivity]. assert (Q : forall q, existsb (Z.eqb slash) q = false -> ~ In slash q).
  { intros q Hq Hi. assert (existsb (Z.eqb slash) q = true) by (apply existsb_exists; exists slash; split; [assumption|apply Z.eqb_refl]). congruence. }
  split; [now left|]. apply List.Forall_cons; [split; [discriminate|split; [discriminate|now apply Q]]|]. apply List.Forall_cons; [split; [discriminate|split; [discriminate|now apply Q]]|]. apply List.Forall_nil.
Qed.

(** ** C109: the folders that are made while a configuration is read *)
(** config.py l.531-538 (_make_dir): runs for a folder as soon as its own entry is read, after the dates have been
    read (l.540: before) and before their order is checked (l.564: after), whether or not the other entries are
    right.  [there] is what exists; the parents of a new folder, made with it, are left out. *)
Definition dates_are_read (m : list (text * yaml)) : res unit :=
  do cn <- read_calendar (get m "calendar");
  let c := calendar_class cn in
  do _ <- read_date c (get m "tracking_start_date"); do _ <- read_date c (get m "tracking_end_date");
  do _ <- read_date c (get m "tagging_start_date"); do _ <- read_date c (get m "tagging_end_date");
  do _ <- read_date c (get m "preprocess_start_date"); do _ <- read_date c (get m "preprocess_end_date"); OK tt.
Definition make_dir (there : path -> bool) (p : path) : list path := if there p then [] else [p].
Definition folders_made (L : library) (cwd : path) (there : path -> bool) (m : list (text * yaml)) : list path :=
  match dates_are_read m with
  | Err _ => []
  | OK _ => match need (read_folder L cwd) (get m "preprocessed_data_folder") with OK (Local p) => make_dir there p | _ => [] end ++
            match need (read_path cwd) (get m "output_folder") with OK p => make_dir there p | _ => [] end
  end.
(** After a configuration has been read, its folders exist, and no others have been made. *)
Theorem C109_folders_exist_partial L cwd is_file there m cfg : validate L cwd is_file m = OK cfg ->
  (forall p, (output_folder _ cfg = p \/ preprocessed_data_folder _ cfg = Local p) -> there p = true \/ In p (folders_made L cwd there m)) /\
  (forall p, In p (folders_made L cwd there m) -> there p = false /\ (output_folder _ cfg = p \/ preprocessed_data_folder _ cfg = Local p)).
Proof.
  intros E. unfold validate in E. repeat (apply bind_ok in E; let x := fresh "x" in let Q := fresh "Q" in destruct E as (x & Q & E)).
  repeat match type of E with (if ?b then _ else _) = _ => destruct b; [discriminate|] end. injection E as <-. cbn [output_folder preprocessed_data_folder].
  unfold folders_made, dates_are_read. cbv zeta in *. rewrite Q. cbn [bind]. rewrite Q0. cbn [bind]. rewrite Q1. cbn [bind]. rewrite Q2. cbn [bind]. rewrite Q3. cbn [bind]. rewrite Q4. cbn [bind]. rewrite Q5. cbn [bind].
  rewrite Q7, Q11. unfold make_dir. split.
  - intros p [<-|E].
    + destruct (there x11) eqn:T; [now left|]. right. apply in_or_app. right. now left.
    + rewrite E. destruct (there p) eqn:T; [now left|]. right. apply in_or_app. left. now left.
  - intros p H. apply in_app_or in H. destruct H as [H|H].
    + destruct x7 as [u|q]; [destruct H|]. destruct (there q) eqn:T; [destruct H|]. destruct H as [<-|[]]. auto.
    + destruct (there x11) eqn:T; [destruct H|]. destruct H as [<-|[]]. auto.
Qed.
(** Nothing is made when a date cannot be read. *)
Theorem C109_bad_dates_make_nothing L cwd there m e : dates_are_read m = Err e -> folders_made L cwd there m = [] /\ forall is_file cfg, validate L cwd is_file m <> OK cfg.
Proof.
  intros H. split; [unfold folders_made; now rewrite H|]. intros is_file cfg E. unfold validate in E. repeat (apply bind_ok in E; let x := fresh "x" in let Q := fresh "Q" in destruct E as (x & Q & E)).
  unfold dates_are_read in H. cbv zeta in *. rewrite Q in H. cbn [bind] in H. rewrite Q0 in H. cbn [bind] in H. rewrite Q1 in H. cbn [bind] in H. rewrite Q2 in H. cbn [bind] in H. rewrite Q3 in H. cbn [bind] in H.
  rewrite Q4 in H. cbn [bind] in H. rewrite Q5 in H. discriminate.
Qed.
(** Any other mistake, in whatever entry, does not keep the output folder from being made. *)
Theorem C109_rejected_leaves_folders_refuted L cwd there m u : dates_are_read m = OK tt -> get m "output_folder" = Some (YStr u) -> there (absolute cwd (path_of u)) = false ->
  In (absolute cwd (path_of u)) (folders_made L cwd there m).
Proof. intros D G T. unfold folders_made. rewrite D, G. cbn [need read_path read_text bind]. apply in_or_app. right. unfold make_dir. rewrite T. now left. Qed.
(** a configuration that is rejected for its direction, and leaves two folders *)
Definition ex_rejected : list (text * yaml) := ex_settings ++ [ex_entry "tracking_direction" "sideways"].
Example C109_case : (forall cfg, validate ex_library ex_cwd (fun _ => false) ex_rejected <> OK cfg) /\
  folders_made ex_library ex_cwd (fun _ => false) ex_rejected = [mkpath 1 [of_string "home"; of_string "me"; of_string ".."; of_string "pre"]; mkpath 1 [of_string "data"; of_string "out"]].
Proof.
  split.
  - intros cfg E. unfold validate in E. repeat (apply bind_ok in E; let x := fresh "x" in let Q := fresh "Q" in destruct E as (x & Q & E)). vm_compute in Q8. discriminate.
  - assert (D : dates_are_read ex_rejected = OK tt).
    { destruct ex_dates as (t1 & t2 & P3 & P1 & _).
      assert (RD : forall t s o, o = Some (YStr (of_string s)) -> ascii_text s = true -> cftime_from_iso Day360 s = OK t -> read_date Day360 o = OK t).
      { intros t s o -> A H. unfold read_date. now rewrite to_ascii_of_string. }
      assert (CC : calendar_class "360_day" = Day360) by (vm_compute; reflexivity).
      unfold dates_are_read. generalize dependent Day360. intros d P3 P1 RD CC. eapply (bind_step _ "360_day"); [vm_compute; reflexivity|cbv beta]. cbv zeta. rewrite CC.
      do 3 (eapply (bind_step _ t1); [apply (RD t1 (text_minute 2021 2 30 0 0)); [vm_compute; reflexivity|vm_compute; reflexivity|exact P3]|cbv beta];
        eapply (bind_step _ t2); [apply (RD t2 (text_minute 2021 7 1 6 30)); [vm_compute; reflexivity|vm_compute; reflexivity|exact P1]|cbv beta]). reflexivity. }
    unfold folders_made. rewrite D. vm_compute. reflexivity.
Qed.
