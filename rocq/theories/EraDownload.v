(** * C106: downloading ERA5 data (scripts/download_era5_pl.py, scripts/download_era5_ml.py) *)
From Coq Require Import Reals Lia Arith ZArith List Bool String Ascii.
From Verif Require Import Num Arr Calendar Prep PrepTrack EraPrep EraTrack Levels ModelLevels Validate Sources EraFiles.
Import ListNotations.
Local Open Scope string_scope.
Local Open Scope list_scope.

(** ** Model *)
(** A request to the Climate Data Store: data set, and a dictionary. *)
Inductive value := Text (s : string) | Texts (l : list string) | Number (z : Z) | Reals (l : list R).
Definition request : Type := string * list (string * value).
(** both scripts, l.27-52 *)
Definition times : list string :=
  ["00:00"; "01:00"; "02:00"; "03:00"; "04:00"; "05:00"; "06:00"; "07:00"; "08:00"; "09:00"; "10:00"; "11:00";
   "12:00"; "13:00"; "14:00"; "15:00"; "16:00"; "17:00"; "18:00"; "19:00"; "20:00"; "21:00"; "22:00"; "23:00"].
(** download_era5_pl.py l.54-75 and download_era5_ml.py l.54-56 *)
Definition pl_levels : list string :=
  ["100"; "200"; "300"; "400"; "500"; "550"; "600"; "650"; "700"; "750"; "775"; "800"; "825"; "850"; "875"; "900"; "925"; "950"; "975"; "1000"].
Definition ml_levels : string := "20/40/60/80/90/95/100/105/110/115/120/123/125/128/130/131/132/133/134/135/136/137".
(** download_era5_pl.py l.77-91, download_era5_ml.py l.58-69 *)
Definition pl_variables : list (string * string) := [("q", "specific_humidity"); ("u", "u_component_of_wind"); ("v", "v_component_of_wind")].
Definition ml_variables : list (string * Z) := [("u", 131%Z); ("v", 132%Z); ("q", 133%Z)].
Definition surface_variables (lt : level_type) : list (string * string) :=
  match lt with
  | pressure_levels => [("tp", "total_precipitation"); ("e", "evaporation"); ("sp", "surface_pressure"); ("d2m", "2m_dewpoint_temperature");
                        ("u10", "10m_u_component_of_wind"); ("v10", "10m_v_component_of_wind"); ("tcw", "total_column_water")]
  | model_levels => [("tp", "total_precipitation"); ("e", "evaporation"); ("sp", "surface_pressure"); ("tcw", "total_column_water")]
  end.
(** The settings of a script: target_dir (not "."), area, grid and datelist (a time for every day). *)
Record script := mkscript { sc_kind : level_type; sc_dir : string; sc_area : option (list R); sc_grid : list R; sc_dates : list Z }.
Definition area_part (s : script) : list (string * value) := match sc_area s with Some a => [("area", Reals a)] | None => [] end.
Definition iso (date : Z) : string := strf_day ProlepticGregorian date.
(** download_era5_pl.py l.101, l.106: outfolder / outfile *)
Definition outfile (s : script) (date : Z) (levtype variable : string) : string :=
  match date_of ProlepticGregorian date with
  | Some (y, m, _) => (sc_dir s ++ "/" ++ digits 4 y ++ "/" ++ digits 2 m ++ "/" ++ "ERA5_" ++ iso date ++ levtype ++ "_" ++ variable ++ ".nc")%string
  | None => ""
  end.
(** download_era5_pl.py l.113-127 *)
Definition surface_request (s : script) (date : Z) (long_name : string) : request :=
  ("reanalysis-era5-single-levels",
   [("product_type", Text "reanalysis"); ("variable", Text long_name); ("date", Text (iso date)); ("time", Texts times);
    ("grid", Reals (sc_grid s)); ("format", Text "netcdf")] ++ area_part s).
(** download_era5_pl.py l.147-162 *)
Definition pl_request (s : script) (date : Z) (long_name : string) : request :=
  ("reanalysis-era5-pressure-levels",
   [("time", Texts times); ("date", Text (iso date)); ("pressure_level", Texts pl_levels); ("variable", Text long_name);
    ("grid", Reals (sc_grid s)); ("product_type", Text "reanalysis"); ("format", Text "netcdf")] ++ area_part s).
(** download_era5_ml.py l.125-146 *)
Definition ml_request (s : script) (date : Z) (param : Z) : request :=
  ("reanalysis-era5-complete",
   [("time", Texts times); ("date", Text (iso date)); ("levelist", Text ml_levels); ("param", Number param); ("class", Text "ea"); ("expver", Text "1");
    ("levtype", Text "ml"); ("stream", Text "oper"); ("type", Text "an"); ("format", Text "netcdf"); ("grid", Reals (sc_grid s))] ++ area_part s).
(** the files in the order of the loops (download_era5_pl.py l.99-105, l.138-140) *)
Definition jobs (s : script) : list (string * request) :=
  flat_map (fun date =>
    map (fun v => (outfile s date "" (fst v), surface_request s date (snd v))) (surface_variables (sc_kind s)) ++
    match sc_kind s with
    | pressure_levels => map (fun v => (outfile s date "_pl" (fst v), pl_request s date (snd v))) pl_variables
    | model_levels => map (fun v => (outfile s date "_ml" (fst v), ml_request s date (snd v))) ml_variables
    end) (sc_dates s).
(** What becomes of a request: the data arrive; or an exception is raised, or the script is killed, in which cases a
    part of the file may have been written. *)
Inductive outcome := Served | Failed (part : option string) | Killed (part : option string).
Definition store := string -> option string.
Definition put (path : string) (b : string) (st : store) : store := fun q => if String.eqb q path then Some b else st q.
Definition leave (path : string) (b : option string) (st : store) : store := match b with Some b => put path b st | None => st end.
(** what the script prints; and whether it ends by itself *)
Inductive event := Skipped (path : string) | Retrieved (path : string) (rq : request) | RequestFailed (path : string) (rq : request).
(** One run of the script, l.107-136: [serve] is the answer of the server to a request, [outs] what becomes of the
    requests in turn (at the end of this list the script is killed). *)
Fixpoint run (serve : request -> string) (skip_exist : bool) (js : list (string * request)) (outs : list outcome) (st : store) : store * list event * bool :=
  match js with
  | [] => (st, [], true)
  | (path, rq) :: js =>
    if (match st path with Some _ => true | None => false end && skip_exist)%bool
    then let '(st, ev, b) := run serve skip_exist js outs st in (st, Skipped path :: ev, b)
    else match outs with
    | Served :: outs => let '(st, ev, b) := run serve skip_exist js outs (put path (serve rq) st) in (st, Retrieved path rq :: ev, b)
    | Failed part :: outs => let '(st, ev, b) := run serve skip_exist js outs (leave path part st) in (st, RequestFailed path rq :: ev, b)
    | Killed part :: _ => (leave path part st, [], false)
    | [] => (st, [], false)
    end
  end.
(** several runs, one after the other *)
Definition history := list (bool * list outcome).
Definition runs serve (s : script) (h : history) (st : store) : store :=
  fold_left (fun st r => let '(st, _, _) := run serve (fst r) (jobs s) (snd r) st in st) h st.

(** ** Specification *)
(** the variables that preprocessing loads *)
Definition needed (lt : level_type) : list string :=
  ["q"; "u"; "v"; "sp"; "e"; "tp"; "tcw"] ++ match lt with pressure_levels => ["d2m"; "u10"; "v10"] | model_levels => [] end.
(** how the Climate Data Store calls them *)
Definition store_name (lt : level_type) (v : string) : string * (string * value) :=
  let one := "reanalysis-era5-single-levels" in
  if String.eqb v "sp" then (one, ("variable", Text "surface_pressure"))
  else if String.eqb v "e" then (one, ("variable", Text "evaporation"))
  else if String.eqb v "tp" then (one, ("variable", Text "total_precipitation"))
  else if String.eqb v "tcw" then (one, ("variable", Text "total_column_water"))
  else if String.eqb v "d2m" then (one, ("variable", Text "2m_dewpoint_temperature"))
  else if String.eqb v "u10" then (one, ("variable", Text "10m_u_component_of_wind"))
  else if String.eqb v "v10" then (one, ("variable", Text "10m_v_component_of_wind"))
  else match lt with
  | pressure_levels => ("reanalysis-era5-pressure-levels", ("variable", Text (if String.eqb v "q" then "specific_humidity" else if String.eqb v "u" then "u_component_of_wind" else "v_component_of_wind")))
  | model_levels => ("reanalysis-era5-complete", ("param", Number (if String.eqb v "q" then 133 else if String.eqb v "u" then 131 else 132)))
  end.
(** the levels: those of example_config.yaml l.11 and, in hPa, of download_era5_pl.py *)
Definition example_levels : list Z := [20; 40; 60; 80; 90; 95; 100; 105; 110; 115; 120; 123; 125; 128; 130; 131; 132; 133; 134; 135; 136; 137]%Z.
Definition pressures : list Z := [100; 200; 300; 400; 500; 550; 600; 650; 700; 750; 775; 800; 825; 850; 875; 900; 925; 950; 975; 1000]%Z.
Definition level_entry (lt : level_type) : string * value :=
  match lt with
  | model_levels => ("levelist", Text (String.concat "/" (map (format_int 0) example_levels)))
  | pressure_levels => ("pressure_level", Texts (map (format_int 0) pressures))
  end.
Definition asks_for (s : script) (date : Z) (v : string) (rq : request) : Prop :=
  let '(set, kv) := store_name (sc_kind s) v in
  fst rq = set /\ NoDup (map fst (snd rq)) /\ In kv (snd rq) /\ In ("date", Text (iso date)) (snd rq) /\ In ("grid", Reals (sc_grid s)) (snd rq) /\
  (forall a, In ("area", a) (snd rq) <-> exists l, sc_area s = Some l /\ a = Reals l) /\
  (In v ["q"; "u"; "v"] -> In (level_entry (sc_kind s)) (snd rq)) /\
  exists l, In ("time", Texts l) (snd rq) /\ forall h, (0 <= h < 24)%Z -> In (digits 2 h ++ ":00")%string l.
Definition dated (s : script) : Prop := plain (sc_dir s) /\ (forall d, In d (sc_dates s) -> four_digit_year ProlepticGregorian d) /\ NoDup (map (fun d => (d / day_us)%Z) (sc_dates s)).

(** ** C106: names and requests *)
Lemma times_all h : (0 <= h < 24)%Z -> In (digits 2 h ++ ":00")%string times.
Proof.
  intros Hh. assert (In h (map Z.of_nat (seq 0 24))) as Hi by (apply in_map_iff; exists (Z.to_nat h); split; [lia|apply in_seq; lia]).
  cbn in Hi. unfold times. repeat (destruct Hi as [<-|Hi]; [vm_compute; auto 30|]). destruct Hi.
Qed.
Lemma NoDup_snoc {A} (l : list A) x : ~ In x l -> NoDup l -> NoDup (l ++ [x]).
Proof.
  induction l as [|y l IH]; intros Hn N; cbn; [now constructor|]. inversion_clear N as [|? ? N1 N2]. constructor; [|apply IH; [intros H; apply Hn; now right|exact N2]].
  rewrite in_app_iff. cbn. intros [H|[->|[]]]; [contradiction|]. apply Hn. now left.
Qed.
Lemma area_ok s (pre : list (string * value)) : ~ In "area" (map fst pre) -> NoDup (map fst pre) ->
  NoDup (map fst (pre ++ area_part s)) /\ forall a, In ("area", a) (pre ++ area_part s) <-> exists l, sc_area s = Some l /\ a = Reals l.
Proof.
  intros Hn Hnd. unfold area_part. destruct (sc_area s) as [ar|].
  - split; [rewrite map_app; now apply NoDup_snoc|]. intros a. rewrite in_app_iff. cbn. split; [intros [H|[H|[]]]|intros (l & [= <-] & ->); auto].
    + destruct Hn. now apply (in_map fst) in H.
    + injection H as <-. eauto.
  - rewrite app_nil_r. split; [exact Hnd|]. intros a. split; [intros H; destruct Hn; now apply (in_map fst) in H|intros (l & H & _); discriminate].
Qed.
Ltac asks := match goal with E : store_name _ _ = _ |- _ => unfold asks_for; rewrite E end; cbn [fst snd];
  match goal with |- context [map fst (?pre ++ area_part ?s)] => destruct (area_ok s pre) as [A1 A2]; [cbn; intuition discriminate|repeat constructor; cbn; intuition discriminate|] end;
  split; [reflexivity|]; split; [assumption|]; do 3 (split; [apply in_or_app; left; cbn; auto 16|]); split; [assumption|]; split; [|exists times; split; [apply in_or_app; left; cbn; auto 16|exact times_all]].
Lemma surface_asks s date v long : store_name (sc_kind s) v = ("reanalysis-era5-single-levels", ("variable", Text long)) -> asks_for s date v (surface_request s date long).
Proof.
  intros E. unfold surface_request. asks. intros [<-|[<-|[<-|[]]]]; exfalso; revert E; destruct (sc_kind s); discriminate.
Qed.
Lemma pl_asks s date v long : store_name (sc_kind s) v = ("reanalysis-era5-pressure-levels", ("variable", Text long)) -> asks_for s date v (pl_request s date long).
Proof.
  intros E. assert (K : sc_kind s = pressure_levels).
  { destruct (sc_kind s); [|reflexivity]. revert E. unfold store_name. repeat match goal with |- context [if ?b then _ else _] => destruct b end; discriminate. }
  unfold pl_request. asks. intros _. rewrite K. apply in_or_app. left. cbn [In]. do 2 right. left. reflexivity.
Qed.
Lemma ml_asks s date v z : store_name (sc_kind s) v = ("reanalysis-era5-complete", ("param", Number z)) -> asks_for s date v (ml_request s date z).
Proof.
  intros E. assert (K : sc_kind s = model_levels).
  { destruct (sc_kind s); [reflexivity|]. revert E. unfold store_name. repeat match goal with |- context [if ?b then _ else _] => destruct b end; discriminate. }
  unfold ml_request. asks. intros _. rewrite K. apply in_or_app. left. cbn [In]. do 2 right. left. reflexivity.
Qed.
Lemma outfile_name s date u levtype v : plain (sc_dir s) -> four_digit_year ProlepticGregorian date -> (u / day_us = date / day_us)%Z ->
  format_template (sc_dir s ++ per_month ++ per_day) ProlepticGregorian u levtype v = OK (outfile s date levtype v).
Proof.
  intros Hp Y Hu.
  assert (Eday : date_of ProlepticGregorian u = date_of ProlepticGregorian date) by (unfold date_of, day_of; now rewrite Hu).
  assert (Es : strf_day ProlepticGregorian u = iso date) by (unfold iso, strf_day; now rewrite Eday).
  assert (Yu : four_digit_year ProlepticGregorian u) by (destruct Y as (y & m & d & E & L); exists y, m, d; rewrite Eday; auto).
  destruct (C104_file_names (sc_dir s) ProlepticGregorian u levtype v Hp Yu) as [_ (y & m & d & E & ->)]. unfold outfile. rewrite <- Eday, E, Es. reflexivity.
Qed.
(** What preprocessing asks for on a day of the script is among the script's files, and holds the answer to the request
    for that day and variable. *)
Theorem C106_names s u date v : dated s -> In date (sc_dates s) -> (u / day_us = date / day_us)%Z -> In v (needed (sc_kind s)) ->
  exists path rq, In (path, rq) (jobs s) /\ asks_for s date v rq /\
    format_template (sc_dir s ++ per_month ++ per_day) ProlepticGregorian u (levtype_of (sc_kind s) v) v = OK path.
Proof.
  intros (Hp & Hy & _) Hd Hu Hv. pose proof (outfile_name s date u (levtype_of (sc_kind s) v) v Hp (Hy date Hd) Hu) as N.
  exists (outfile s date (levtype_of (sc_kind s) v) v).
  assert (J : forall rq, In (outfile s date (levtype_of (sc_kind s) v) v, rq)
    (map (fun v => (outfile s date "" (fst v), surface_request s date (snd v))) (surface_variables (sc_kind s)) ++
     match sc_kind s with
     | pressure_levels => map (fun v => (outfile s date "_pl" (fst v), pl_request s date (snd v))) pl_variables
     | model_levels => map (fun v => (outfile s date "_ml" (fst v), ml_request s date (snd v))) ml_variables
     end) -> asks_for s date v rq -> exists rq, In (outfile s date (levtype_of (sc_kind s) v) v, rq) (jobs s) /\ asks_for s date v rq /\
    format_template (sc_dir s ++ per_month ++ per_day) ProlepticGregorian u (levtype_of (sc_kind s) v) v = OK (outfile s date (levtype_of (sc_kind s) v) v)).
  { intros rq H A. exists rq. split; [unfold jobs; apply in_flat_map; exists date; split; [exact Hd|exact H]|]. split; [exact A|exact N]. }
  pose proof (surface_asks s date) as S. pose proof (pl_asks s date) as Pq. pose proof (ml_asks s date) as Mq.
  destruct (sc_kind s); cbn [needed app In] in Hv; repeat (destruct Hv as [<-|Hv]; [eapply J; [apply in_or_app; first [left; cbn; auto 12; fail | right; cbn; auto 12; fail]|first [apply S; reflexivity | apply Pq; reflexivity | apply Mq; reflexivity]]|]); destruct Hv.
Qed.
(** Nothing else is downloaded, and no two files of the script have the same name. *)
Lemma job_inv s path rq : In (path, rq) (jobs s) -> exists date v, In date (sc_dates s) /\ In v (needed (sc_kind s)) /\ path = outfile s date (levtype_of (sc_kind s) v) v /\ asks_for s date v rq.
Proof.
  unfold jobs. rewrite in_flat_map. intros (date & Hd & H). exists date.
  pose proof (surface_asks s date) as S. pose proof (pl_asks s date) as Pq. pose proof (ml_asks s date) as Mq.
  destruct (sc_kind s) eqn:K; cbn in H; repeat (destruct H as [[= <- <-]|H]; [|]); try contradiction;
    match goal with |- exists v, _ /\ _ /\ outfile _ _ _ ?x = _ /\ _ => exists x end; (split; [exact Hd|]; split; [cbn; auto 14|]; split; [reflexivity|]; rewrite <- K in *; first [apply S; rewrite K; reflexivity | apply Pq; rewrite K; reflexivity | apply Mq; rewrite K; reflexivity]).
Qed.
Lemma outfile_inj s date date' lt v v' : four_digit_year ProlepticGregorian date -> four_digit_year ProlepticGregorian date' -> In v era5_variables -> In v' era5_variables ->
  outfile s date (levtype_of lt v) v = outfile s date' (levtype_of lt v') v' -> (date / day_us = date' / day_us)%Z /\ v = v'.
Proof.
  intros Y Y' Hv Hv' H. pose proof Y as (y & m & d & E & L). pose proof Y' as (y' & m' & d' & E' & L').
  unfold outfile in H. rewrite E, E' in H. apply append_inj in H; [|reflexivity]. destruct H as [_ H]. apply append_inj in H; [|reflexivity]. destruct H as [_ H].
  apply append_inj in H; [|now rewrite !digits_length]. destruct H as [_ H]. apply append_inj in H; [|reflexivity]. destruct H as [_ H].
  apply append_inj in H; [|now rewrite !digits_length]. destruct H as [_ H]. apply append_inj in H; [|reflexivity]. destruct H as [_ H].
  apply (C104_names_differ "" ProlepticGregorian lt date date' v v' ("ERA5_" ++ iso date ++ levtype_of lt v ++ "_" ++ v ++ ".nc")%string); auto; [exact I| |].
  - destruct (C104_file_names "" ProlepticGregorian date (levtype_of lt v) v I Y) as [-> _]. reflexivity.
  - destruct (C104_file_names "" ProlepticGregorian date' (levtype_of lt v') v' I Y') as [-> _]. unfold iso in *. rewrite H. reflexivity.
Qed.
Theorem C106_only_these s : dated s -> NoDup (map fst (jobs s)) /\
  forall path rq, In (path, rq) (jobs s) -> exists date v, In date (sc_dates s) /\ In v (needed (sc_kind s)) /\ asks_for s date v rq /\
    forall u, (u / day_us = date / day_us)%Z -> format_template (sc_dir s ++ per_month ++ per_day) ProlepticGregorian u (levtype_of (sc_kind s) v) v = OK path.
Proof.
  intros (Hp & Hy & Hn). split.
  - unfold jobs. induction (sc_dates s) as [|date l IH]; [constructor|]. cbn [flat_map]. rewrite map_app.
    cbn [map] in Hn. inversion_clear Hn as [|? ? N1 N2]. specialize (IH (fun d Hd => Hy d (or_intror Hd)) N2).
    match goal with |- NoDup (?a ++ _) => set (here := a) end.
    assert (W : exists vs, here = map (fun v => outfile s date (levtype_of (sc_kind s) v) v) vs /\ NoDup vs /\ forall v, In v vs -> In v era5_variables).
    { unfold here. destruct (sc_kind s).
      - exists ["tp"; "e"; "sp"; "tcw"; "u"; "v"; "q"]. split; [reflexivity|]. split; [repeat constructor; cbn; intuition discriminate|]. intros v Hv. cbn in *. intuition.
      - exists ["tp"; "e"; "sp"; "d2m"; "u10"; "v10"; "tcw"; "q"; "u"; "v"]. split; [reflexivity|]. split; [repeat constructor; cbn; intuition discriminate|]. intros v Hv. cbn in *. intuition. }
    assert (Wl : forall p, In p (map fst (flat_map (fun date =>
       map (fun v => (outfile s date "" (fst v), surface_request s date (snd v))) (surface_variables (sc_kind s)) ++
       match sc_kind s with
       | pressure_levels => map (fun v => (outfile s date "_pl" (fst v), pl_request s date (snd v))) pl_variables
       | model_levels => map (fun v => (outfile s date "_ml" (fst v), ml_request s date (snd v))) ml_variables
       end) l)) -> exists d v, In d l /\ In v era5_variables /\ p = outfile s d (levtype_of (sc_kind s) v) v).
    { intros p H. apply in_map_iff in H. destruct H as ([p' rq] & <- & H). 
      destruct (job_inv (mkscript (sc_kind s) (sc_dir s) (sc_area s) (sc_grid s) l) p' rq H) as (d & v & Hd & Hv & -> & _). exists d, v. split; [exact Hd|]. split; [|reflexivity].
      cbn [sc_kind] in Hv. destruct (sc_kind s); cbn in *; intuition. }
    destruct W as (vs & -> & Nv & Hvs).
    assert (App : forall A (a b : list A), NoDup a -> NoDup b -> (forall x, In x a -> ~ In x b) -> NoDup (a ++ b)).
    { clear. intros A a b Na Nb H. induction a as [|x a IH]; [exact Nb|]. inversion_clear Na as [|? ? N1 N2]. cbn. constructor; [|apply IH; [exact N2|intros y Hy; apply H; now right]].
      rewrite in_app_iff. intros [Q|Q]; [contradiction|]. apply (H x); [now left|exact Q]. }
    apply App; [|exact IH|].
    + assert (Y : four_digit_year ProlepticGregorian date) by (apply Hy; now left). clear -Nv Hvs Y. induction vs as [|v vs IH]; [constructor|]. cbn. inversion_clear Nv as [|? ? N1 N2].
      constructor; [|apply IH; [exact N2|intros w Hw; apply Hvs; now right]]. intros H. apply in_map_iff in H. destruct H as (w & E & Hw).
      apply outfile_inj in E; [|exact Y|exact Y|apply Hvs; now right|apply Hvs; now left]. destruct E as [_ ->]. contradiction.
    + intros p Hp1 Hp2. apply in_map_iff in Hp1. destruct Hp1 as (v & <- & Hv). destruct (Wl _ Hp2) as (d & w & Hd & Hw & E).
      apply outfile_inj in E; [|apply Hy; now left|apply Hy; now right|now apply Hvs|exact Hw]. destruct E as [E _]. apply N1. rewrite E. now apply (in_map (fun d => (d / day_us)%Z)).
  - intros path rq H. destruct (job_inv s path rq H) as (date & v & Hd & Hv & -> & A). exists date, v. split; [exact Hd|]. split; [exact Hv|]. split; [exact A|].
    intros u Hu. apply outfile_name; auto.
Qed.

(** ** C106: interrupted downloads *)
(** the files of the script hold what the server has *)
Definition whole serve (js : list (string * request)) (st : store) : Prop := forall path rq, In (path, rq) js -> st path = Some (serve rq).
Definition sound serve (js : list (string * request)) (st : store) : Prop := forall path rq b, In (path, rq) js -> st path = Some b -> b = serve rq.
(** nothing is left of a download that does not succeed *)
Definition clean (outs : list outcome) : Prop := forall o, In o outs -> match o with Served => True | Failed part | Killed part => part = None end.
(** the script has ended by itself and has printed no failure *)
Definition no_failure (ev : list event) (b : bool) : Prop := b = true /\ forall path rq, ~ In (RequestFailed path rq) ev.
Lemma nodup_fst {A B} (l : list (A * B)) a b b' : NoDup (map fst l) -> In (a, b) l -> In (a, b') l -> b = b'.
Proof.
  induction l as [|[x y] l IH]; intros N H H'; [destruct H|]. cbn in N. inversion_clear N as [|? ? N1 N2].
  destruct H as [E|H], H' as [E'|H']; [congruence| | |eauto].
  - injection E as -> ->. destruct N1. now apply (in_map fst) in H'.
  - injection E' as -> ->. destruct N1. now apply (in_map fst) in H.
Qed.
Lemma run_other serve skip js : forall outs st st' ev b p, run serve skip js outs st = (st', ev, b) -> ~ In p (map fst js) -> st' p = st p.
Proof.
  induction js as [|[path rq] js IH]; intros outs st st' ev b p E Hp; [cbn [run] in E; injection E as <- _ _; reflexivity|]. cbn in Hp. cbn [run] in E.
  assert (P : forall x, put path x st p = st p) by (intros x; unfold put; destruct (String.eqb_spec p path) as [->|]; [destruct Hp; now left|reflexivity]).
  assert (Lv : forall x, leave path x st p = st p) by (intros [x|]; [apply P|reflexivity]).
  destruct (_ && skip)%bool.
  - destruct (run _ _ js outs st) as [[s1 e1] b1] eqn:R. injection E as <- _ _. eapply IH; [exact R|]. intros H. apply Hp. now right.
  - destruct outs as [|[|part|part] outs].
    + injection E as <- _ _. reflexivity.
    + destruct (run _ _ js outs _) as [[s1 e1] b1] eqn:R. injection E as <- _ _. rewrite (IH _ _ _ _ _ p R); [apply P|]. intros H. apply Hp. now right.
    + destruct (run _ _ js outs _) as [[s1 e1] b1] eqn:R. injection E as <- _ _. rewrite (IH _ _ _ _ _ p R); [apply Lv|]. intros H. apply Hp. now right.
    + injection E as <- _ _. apply Lv.
Qed.
Lemma run_sound serve skip all : NoDup (map fst all) -> forall js, (forall x, In x js -> In x all) -> forall outs st st' ev b, clean outs -> sound serve all st -> run serve skip js outs st = (st', ev, b) -> sound serve all st'.
Proof.
  intros N js. induction js as [|[path rq] js IH]; intros Hin outs st st' ev b C S E; [cbn [run] in E; injection E as <- _ _; exact S|]. cbn [run] in E.
  assert (Hin' : forall x, In x js -> In x all) by (intros x Hx; apply Hin; now right).
  destruct (_ && skip)%bool.
  - destruct (run _ _ js outs st) as [[s1 e1] b1] eqn:R. injection E as <- _ _. eapply IH; eauto.
  - destruct outs as [|o outs]; [cbn [run] in E; injection E as <- _ _; exact S|]. assert (C' : clean outs) by (intros x Hx; apply C; now right). pose proof (C o (or_introl eq_refl)) as Co.
    destruct o as [|part|part].
    + destruct (run _ _ js outs _) as [[s1 e1] b1] eqn:R. injection E as <- _ _. eapply IH; [exact Hin'|exact C'| |exact R]. intros p r x Hp. unfold put. destruct (String.eqb_spec p path) as [->|]; [|now apply S].
      intros [= <-]. f_equal. apply (nodup_fst all path); [exact N|apply Hin; now left|exact Hp].
    + subst part. destruct (run _ _ js outs _) as [[s1 e1] b1] eqn:R. injection E as <- _ _. eapply IH; eauto.
    + subst part. injection E as <- _ _. exact S.
Qed.
Lemma run_whole serve skip js : NoDup (map fst js) -> forall outs st st' ev b, sound serve js st -> run serve skip js outs st = (st', ev, b) -> no_failure ev b -> whole serve js st'.
Proof.
  induction js as [|[path rq] js IH]; intros N outs st st' ev b S E F; [intros ? ? []|]. cbn in N. inversion_clear N as [|? ? N1 N2]. cbn [run] in E. destruct F as [Fb Fe].
  assert (S' : sound serve js st) by (intros p r x Hp; apply S; now right).
  destruct (match st path with Some _ => true | None => false end && skip)%bool eqn:Q.
  - destruct (run _ _ js outs st) as [[s1 e1] b1] eqn:R. injection E as <- <- <-. assert (W : whole serve js s1) by (eapply IH; [exact N2|exact S'|exact R|split; [exact Fb|intros p r H; apply (Fe p r); now right]]).
    intros p r [[= <- <-]|H]; [|now apply W]. rewrite (run_other _ _ _ _ _ _ _ _ path R N1). destruct (st path) as [x|] eqn:Ex; [|discriminate]. f_equal. apply (S path); [now left|exact Ex].
  - destruct outs as [|[|part|part] outs].
    + injection E as <- <- <-. discriminate.
    + destruct (run _ _ js outs _) as [[s1 e1] b1] eqn:R. injection E as <- <- <-.
      assert (W : whole serve js s1).
      { eapply IH; [exact N2| |exact R|split; [exact Fb|intros p r H; apply (Fe p r); now right]]. intros p r x Hp. unfold put. destruct (String.eqb_spec p path) as [->|]; [destruct N1; now apply (in_map fst) in Hp|now apply S']. }
      intros p r [[= <- <-]|H]; [|now apply W]. rewrite (run_other _ _ _ _ _ _ _ _ path R N1). unfold put. now rewrite String.eqb_refl.
    + destruct (run _ _ js outs _) as [[s1 e1] b1]. injection E as <- <- <-. exfalso. apply (Fe path rq). now left.
    + injection E as <- <- <-. discriminate.
Qed.
Lemma runs_sound serve s h : NoDup (map fst (jobs s)) -> (forall r, In r h -> clean (snd r)) -> forall st, sound serve (jobs s) st -> sound serve (jobs s) (runs serve s h st).
Proof.
  intros N. unfold runs. induction h as [|r h IH]; intros C st S; [exact S|]. cbn [fold_left]. apply IH; [intros x Hx; apply C; now right|].
  destruct (run serve (fst r) (jobs s) (snd r) st) as [[s1 e1] b1] eqn:R. eapply (run_sound serve (fst r) (jobs s) N (jobs s)); [auto|apply C; now left|exact S|exact R].
Qed.
(** with skip_exist, an existing file is neither requested nor touched *)
Lemma run_keeps serve js : forall outs st st' ev b p x, run serve true js outs st = (st', ev, b) -> st p = Some x -> st' p = Some x /\ (forall rq, ~ In (Retrieved p rq) ev) /\ forall rq, ~ In (RequestFailed p rq) ev.
Proof.
  induction js as [|[path rq] js IH]; intros outs st st' ev b p x E Hp; [cbn [run] in E; injection E as <- <- _; split; [exact Hp|split; intros ? []]|]. cbn [run] in E.
  destruct (match st path with Some _ => true | None => false end && true)%bool eqn:Q.
  - destruct (run _ _ js outs st) as [[s1 e1] b1] eqn:R. injection E as <- <- _. destruct (IH _ _ _ _ _ p x R Hp) as (H1 & H2 & H3).
    split; [exact H1|]. split; intros r [H|H]; [discriminate|now apply (H2 r)|discriminate|now apply (H3 r)].
  - assert (D : p <> path) by (intros ->; rewrite Hp in Q; discriminate).
    assert (P : forall y, put path y st p = Some x) by (intros y; unfold put; destruct (String.eqb_spec p path); [contradiction|exact Hp]).
    assert (Lv : forall y, leave path y st p = Some x) by (intros [y|]; [apply P|exact Hp]).
    destruct outs as [|[|part|part] outs].
    + injection E as <- <- _. split; [exact Hp|split; intros ? []].
    + destruct (run _ _ js outs _) as [[s1 e1] b1] eqn:R. injection E as <- <- _. destruct (IH _ _ _ _ _ p x R (P _)) as (H1 & H2 & H3).
      split; [exact H1|]. split; intros r [H|H]; [congruence|now apply (H2 r)|discriminate|now apply (H3 r)].
    + destruct (run _ _ js outs _) as [[s1 e1] b1] eqn:R. injection E as <- <- _. destruct (IH _ _ _ _ _ p x R (Lv _)) as (H1 & H2 & H3).
      split; [exact H1|]. split; intros r [H|H]; [discriminate|now apply (H2 r)|congruence|now apply (H3 r)].
    + injection E as <- <- _. split; [apply Lv|split; intros ? []].
Qed.
(** If nothing is left of downloads that do not succeed: after any number of runs, whatever failed and wherever they
    were killed, every file that is there is whole, and as soon as the script ends without a failure they are all
    there.  A run with skip_exist requests only what is missing. *)
Theorem C106_interrupted_partial serve s h st : dated s -> (forall r, In r h -> clean (snd r)) -> sound serve (jobs s) st ->
  let now := runs serve s h st in
  sound serve (jobs s) now /\
  (forall skip outs st' ev b, run serve skip (jobs s) outs now = (st', ev, b) -> no_failure ev b -> whole serve (jobs s) st') /\
  (forall outs st' ev b path rq, run serve true (jobs s) outs now = (st', ev, b) -> In (Retrieved path rq) ev -> now path = None).
Proof.
  intros D C S. destruct (C106_only_these s D) as [N _]. cbn zeta. pose proof (runs_sound serve s h N C st S) as W. split; [exact W|]. split.
  - intros skip outs st' ev b R F. exact (run_whole serve skip (jobs s) N outs _ st' ev b W R F).
  - intros outs st' ev b path rq R H. destruct (runs serve s h st path) as [x|] eqn:E; [|reflexivity]. destruct (run_keeps serve (jobs s) _ _ _ _ _ path x R E) as (_ & Q & _). now destruct (Q rq).
Qed.
(** But if the script is killed while it writes a file, later runs with skip_exist never repair this file, although
    they report nothing: the claim does not hold for every crash point. *)
Theorem C106_interrupted_refuted serve s path rq rest part : jobs s = (path, rq) :: rest -> part <> serve rq ->
  let now := runs serve s [(true, [Killed (Some part)])] (fun _ => None) in
  (forall h, (forall r, In r h -> fst r = true) -> ~ sound serve (jobs s) (runs serve s h now)) /\
  (exists outs st' ev b, run serve true (jobs s) outs now = (st', ev, b) /\ no_failure ev b).
Proof.
  intros J Hp. cbn zeta.
  assert (E : runs serve s [(true, [Killed (Some part)])] (fun _ => None) path = Some part).
  { unfold runs. cbn [fold_left fst snd]. rewrite J. cbn [run andb]. unfold leave, put. now rewrite String.eqb_refl. }
  split.
  - intros h Hh S. apply Hp. apply (S path rq); [rewrite J; now left|].
    assert (K : forall h st, (forall r, In r h -> fst r = true) -> st path = Some part -> runs serve s h st path = Some part).
    { clear. intros h. unfold runs. induction h as [|[sk outs] h IH]; intros st Hh Hs; [exact Hs|]. cbn [fold_left fst snd]. apply IH; [intros r Hr; apply Hh; now right|].
      pose proof (Hh _ (or_introl eq_refl)) as Q. cbn in Q. subst sk. destruct (run serve true (jobs s) outs st) as [[s1 e1] b1] eqn:R. now apply (run_keeps serve (jobs s) outs st s1 e1 b1). }
    now apply K.
  - assert (K : forall js st, exists st' ev b, run serve true js (map (fun _ => Served) js) st = (st', ev, b) /\ no_failure ev b).
    { assert (K : forall js outs st, (forall o, In o outs -> o = Served) -> (List.length js <= List.length outs)%nat -> exists st' ev b, run serve true js outs st = (st', ev, b) /\ no_failure ev b).
      { clear. induction js as [|[p r] js IH]; intros outs st Ho L; [exists st, [], true; split; [reflexivity|split; [reflexivity|intros ? ? []]]|]. cbn [run].
        destruct (_ && true)%bool.
        - destruct (IH outs st Ho ltac:(cbn in L; lia)) as (st' & ev & b & -> & F1 & F2). eexists _, _, _. split; [reflexivity|]. split; [exact F1|]. intros q r' [H|H]; [discriminate|now apply (F2 q r')].
        - destruct outs as [|o outs]; [cbn in L; lia|]. pose proof (Ho o (or_introl eq_refl)) as ->.
          destruct (IH outs (put p (serve r) st) (fun o H => Ho o (or_intror H)) ltac:(cbn in L; lia)) as (st' & ev & b & -> & F1 & F2). eexists _, _, _. split; [reflexivity|]. split; [exact F1|].
          intros q r' [H|H]; [discriminate|now apply (F2 q r')]. }
      intros js st. apply K; [intros o H; apply in_map_iff in H; now destruct H as (? & <- & _)|now rewrite map_length]. }
    eexists. apply K.
Qed.
(** Without skip_exist, a run without failures repairs everything, whatever was there. *)
Theorem C106_download_again serve s outs st st' ev b : dated s -> run serve false (jobs s) outs st = (st', ev, b) -> no_failure ev b -> whole serve (jobs s) st'.
Proof.
  intros D. destruct (C106_only_these s D) as [N _]. revert N outs st st' ev b. induction (jobs s) as [|[path rq] js IH]; intros N outs st st' ev b E [Fb Fe]; [intros ? ? []|].
  cbn in N. inversion_clear N as [|? ? N1 N2]. cbn [run] in E. rewrite andb_false_r in E. destruct outs as [|[|part|part] outs].
  - injection E as <- <- <-. discriminate.
  - destruct (run _ _ js outs _) as [[s1 e1] b1] eqn:R. injection E as <- <- <-.
    assert (W : whole serve js s1) by (eapply IH; [exact N2|exact R|split; [exact Fb|intros p r H; apply (Fe p r); now right]]).
    intros p r [[= <- <-]|H]; [|now apply W]. rewrite (run_other _ _ _ _ _ _ _ _ path R N1). unfold put. now rewrite String.eqb_refl.
  - destruct (run _ _ js outs _) as [[s1 e1] b1]. injection E as <- <- <-. exfalso. apply (Fe path rq). now left.
  - injection E as <- <- <-. discriminate.
Qed.

(** ** C106: preprocessing what was downloaded *)
(** the files as xarray reads them *)
Definition readable (parse : string -> era5_file) (st : store) : files := fun name => option_map parse (st name).
(** the answers of the server under the names of the script *)
Definition answers serve (s : script) : store := fun name =>
  match find (fun j => String.eqb (fst j) name) (jobs s) with Some j => Some (serve (snd j)) | None => None end.
Lemma answers_at serve s path rq : NoDup (map fst (jobs s)) -> In (path, rq) (jobs s) -> answers serve s path = Some (serve rq).
Proof.
  intros N H. unfold answers. destruct (find _ _) as [[p r]|] eqn:E.
  - apply find_some in E. destruct E as [E1 E2]. apply String.eqb_eq in E2. cbn in E2. subst p. cbn. do 2 f_equal. now apply (nodup_fst (jobs s) path).
  - apply (find_none _ _ E) in H. cbn in H. now rewrite String.eqb_refl in H.
Qed.
Lemma hold_agree template cal lt lv fs fs' u d : hold template cal lt lv fs u d ->
  (forall v name, In v (needed lt) -> format_template template cal u (levtype_of lt v) v = OK name -> fs' name = fs name) -> hold template cal lt lv fs' u d.
Proof.
  intros H A.
  assert (Sf : forall v x, In v (needed lt) -> three_dim v = false -> has_surface fs (format_template template cal u "" v) u (raw_lat d) (raw_lon d) x -> has_surface fs' (format_template template cal u "" v) u (raw_lat d) (raw_lon d) x).
  { intros v x Hv H3 (name & f & g & E & Ef & R). exists name, f, g. split; [exact E|]. split; [|exact R]. rewrite <- Ef. apply (A v); [exact Hv|]. unfold levtype_of. now rewrite H3. }
  assert (Lv : forall v x, In v (needed lt) -> three_dim v = true -> has_levels lv fs (format_template template cal u (match lt with model_levels => "_ml" | pressure_levels => "_pl" end) v) u (raw_lat d) (raw_lon d) (raw_level d) x ->
    has_levels lv fs' (format_template template cal u (match lt with model_levels => "_ml" | pressure_levels => "_pl" end) v) u (raw_lat d) (raw_lon d) (raw_level d) x).
  { intros v x Hv H3 (name & f & g & ls & E & Ef & R). exists name, f, g, ls. split; [exact E|]. split; [|exact R]. rewrite <- Ef. apply (A v); [exact Hv|]. unfold levtype_of. now rewrite H3. }
  assert (N : forall v, In v ["q"; "u"; "v"; "sp"; "e"; "tp"; "tcw"] -> In v (needed lt)) by (intros v Hv; apply in_or_app; now left).
  destruct H as (Hq & Hu & Hv & Hsp & He & Htp & Hpl & Htcw). unfold hold. cbn zeta in *.
  split; [apply Lv; [apply N; cbn; auto|reflexivity|exact Hq]|]. split; [apply Lv; [apply N; cbn; auto|reflexivity|exact Hu]|]. split; [apply Lv; [apply N; cbn; auto|reflexivity|exact Hv]|].
  split; [apply Sf; [apply N; cbn; auto 12|reflexivity|exact Hsp]|]. split; [apply Sf; [apply N; cbn; auto 12|reflexivity|exact He]|]. split; [apply Sf; [apply N; cbn; auto 12|reflexivity|exact Htp]|].
  split.
  - intros ->. destruct (Hpl eq_refl) as (H1 & H2 & H3). split; [apply Sf; [cbn; auto 12|reflexivity|exact H1]|]. split; apply Sf; try (cbn; auto 12; fail); try reflexivity; assumption.
  - destruct (raw_tcw d) as [w|]; [apply Sf; [apply N; cbn; auto 8|reflexivity|exact Htcw]|]. destruct Htcw as (name & E & Ef). exists name. split; [exact E|]. rewrite <- Ef. apply (A "tcw"); [apply N; cbn; auto 8|exact E].
Qed.
(** When the files are whole, preprocessing any time of a day of the script, with the script's directory in the
    template, finds the data that the server's answers hold. *)
Theorem C106_download_then_preprocess serve parse s st u date lv d : dated s -> whole serve (jobs s) st -> In date (sc_dates s) -> (u / day_us = date / day_us)%Z ->
  let template := (sc_dir s ++ per_month ++ per_day)%string in
  hold template ProlepticGregorian (sc_kind s) lv (readable parse (answers serve s)) u d ->
  exists d', load_era5 template ProlepticGregorian (sc_kind s) lv (readable parse st) u = OK d' /\ same_data (sc_kind s) d d'.
Proof.
  intros D W Hd Hu template H. apply C104_files_are_loaded. apply (hold_agree _ _ _ _ _ _ _ _ H). intros v name Hv E.
  destruct (C106_names s u date v D Hd Hu Hv) as (path & rq & J & _ & E'). fold template in E'. rewrite E in E'. injection E' as <-.
  unfold readable. rewrite (W _ _ J), (answers_at serve s name rq); [reflexivity|now apply C106_only_these|exact J].
Qed.

(** ** A concrete case: the data of C105_case, downloaded for two days *)
Definition ex_script : script := mkscript pressure_levels "ERA5data" None [1; 1]%R [0%Z; day_us].
Definition ex_serve (rq : request) : string := match find (fun kv => String.eqb (fst kv) "variable") (snd rq) with Some (_, Text s) => s | _ => "" end.
Definition ex_parse (b : string) : era5_file :=
  if String.eqb b "specific_humidity" then ex_column [1/1000; 7; 1/100; 2/100]%R
  else if String.eqb b "u_component_of_wind" then ex_column [20; 7; 5; 1]%R
  else if String.eqb b "v_component_of_wind" then ex_column [-3; 7; 2; 1]%R
  else if String.eqb b "surface_pressure" then ex_surface (fun _ _ => 97000 + 1 / 2)%R
  else if String.eqb b "2m_dewpoint_temperature" then ex_surface (fun _ _ => 273.15%R)
  else if String.eqb b "10m_u_component_of_wind" then ex_surface (fun _ _ => 2%R)
  else if String.eqb b "10m_v_component_of_wind" then ex_surface (fun _ _ => 1%R)
  else if String.eqb b "total_precipitation" then ex_surface (fun i _ => INR i / 1000)%R
  else if String.eqb b "evaporation" then ex_surface (fun _ j => - INR j / 1000)%R
  else if String.eqb b "total_column_water" then ex_surface (fun i _ => 30 + INR i)%R
  else mkfile 0 [] [].
Lemma ex_day1 : date_of ProlepticGregorian 0 = Some (1970, 1, 1)%Z.
Proof. unfold date_of, day_of. rewrite civil_eq, epoch_eq. vm_compute. reflexivity. Qed.
Lemma ex_day2 : date_of ProlepticGregorian day_us = Some (1970, 1, 2)%Z.
Proof. unfold date_of, day_of. rewrite civil_eq, epoch_eq. vm_compute. reflexivity. Qed.
Lemma ex_dated : dated ex_script.
Proof.
  split; [cbn; intuition discriminate|]. split.
  - intros d [<-|[<-|[]]]; [exists 1970%Z, 1%Z, 1%Z; split; [exact ex_day1|lia]|exists 1970%Z, 1%Z, 2%Z; split; [exact ex_day2|lia]].
  - vm_compute. repeat constructor; cbn; intuition discriminate.
Qed.
Example C106_case : dated ex_script /\
  (exists rq rest, jobs ex_script = ("ERA5data/1970/01/ERA5_1970-01-01_tp.nc", rq) :: rest /\ "half a fi" <> ex_serve rq) /\
  (forall u date, In u (input_dates ex_prep) -> In date (sc_dates ex_script) -> (u / day_us = date / day_us)%Z ->
     hold (sc_dir ex_script ++ per_month ++ per_day) ProlepticGregorian pressure_levels (Numbers [850; 300; 1000]%Z) (readable ex_parse (answers ex_serve ex_script)) u (ex_held true u)) /\
  (forall u, In u (input_dates ex_prep) -> exists date, In date (sc_dates ex_script) /\ (u / day_us = date / day_us)%Z).
Proof.
  split; [exact ex_dated|]. split; [|split].
  - unfold jobs. cbn [ex_script sc_dates flat_map sc_kind surface_variables map app fst]. unfold outfile, iso, strf_day. rewrite ex_day1. eexists _, _. split; [reflexivity|discriminate].
  - intros u date Hu Hd Ed. pose proof ex_dated as (Hp & Hy & _). destruct (C106_only_these ex_script ex_dated) as [N _].
    assert (P : forall levtype v, format_template (sc_dir ex_script ++ per_month ++ per_day) ProlepticGregorian u levtype v = OK (outfile ex_script date levtype v)) by (intros; apply outfile_name; auto).
    assert (Fs : forall v long, In (v, long) (surface_variables pressure_levels) -> readable ex_parse (answers ex_serve ex_script) (outfile ex_script date "" v) = Some (ex_parse long)).
    { intros v long H. unfold readable. rewrite (answers_at ex_serve ex_script _ (surface_request ex_script date long) N); [reflexivity|].
      unfold jobs. apply in_flat_map. exists date. split; [exact Hd|]. apply in_or_app. left. now apply (in_map (fun v => (outfile ex_script date "" (fst v), surface_request ex_script date (snd v))) _ (v, long)). }
    assert (Fp : forall v long, In (v, long) pl_variables -> readable ex_parse (answers ex_serve ex_script) (outfile ex_script date "_pl" v) = Some (ex_parse long)).
    { intros v long H. unfold readable. rewrite (answers_at ex_serve ex_script _ (pl_request ex_script date long) N); [reflexivity|].
      unfold jobs. apply in_flat_map. exists date. split; [exact Hd|]. apply in_or_app. right. now apply (in_map (fun v => (outfile ex_script date "_pl" (fst v), pl_request ex_script date (snd v))) _ (v, long)). }
    unfold hold. cbn zeta. cbn [ex_held raw_lat raw_lon raw_level raw_at raw_tcw ex_cell raw_q raw_u raw_v raw_sp raw_e raw_tp raw_d2m raw_u10 raw_v10].
    split; [eapply ex_column_ok; [exact Hu|apply P|rewrite (Fp _ "specific_humidity") by (cbn; auto); reflexivity|reflexivity]|].
    split; [eapply ex_column_ok; [exact Hu|apply P|rewrite (Fp _ "u_component_of_wind") by (cbn; auto); reflexivity|reflexivity]|].
    split; [eapply ex_column_ok; [exact Hu|apply P|rewrite (Fp _ "v_component_of_wind") by (cbn; auto); reflexivity|reflexivity]|].
    split; [eapply ex_surface_ok; [exact Hu|apply P|rewrite (Fs _ "surface_pressure") by (cbn; auto 12); reflexivity]|].
    split; [eapply ex_surface_ok; [exact Hu|apply P|rewrite (Fs _ "evaporation") by (cbn; auto 12); reflexivity]|].
    split; [eapply ex_surface_ok; [exact Hu|apply P|rewrite (Fs _ "total_precipitation") by (cbn; auto 12); reflexivity]|].
    split; [intros _; split; [eapply ex_surface_ok; [exact Hu|apply P|rewrite (Fs _ "2m_dewpoint_temperature") by (cbn; auto 12); reflexivity]|split]|].
    + eapply ex_surface_ok; [exact Hu|apply P|rewrite (Fs _ "10m_u_component_of_wind") by (cbn; auto 12); reflexivity].
    + eapply ex_surface_ok; [exact Hu|apply P|rewrite (Fs _ "10m_v_component_of_wind") by (cbn; auto 12); reflexivity].
    + eapply ex_surface_ok; [exact Hu|apply P|rewrite (Fs _ "total_column_water") by (cbn; auto 12); reflexivity].
  - intros u Hu. assert (L : In u [0; 21600000000; 43200000000; 64800000000; 86400000000]%Z) by (revert Hu; vm_compute; tauto).
    cbn [In] in L. destruct L as [<-|[<-|[<-|[<-|[<-|[]]]]]]; [exists 0%Z|exists 0%Z|exists 0%Z|exists 0%Z|exists day_us]; (split; [cbn; auto|reflexivity]).
Qed.
