(** * C104, C105: from ERA5 files to preprocessing
    preprocessing/era5.py l.37-139 (get_input_data, open_da, load_data, preprocess_precip_and_evap). *)
From Coq Require Import Reals Lra Lia Arith ZArith List Bool String Ascii Permutation Sorted.
From Verif Require Import Num Arr Core Track Progress Cells Sums SpecTransport HAdv StepR AdvProps StepProps StepBounds Run RunSched RunBody RunGen RunProps RunInv Calendar Load Prep PrepTrack Sphere Region Surface Humidity ModelLevels Interp Levels LayersR Extend Thickness ColumnProps Lon EraPrep EraTrack Validate ExampleRun Sources.
Import ListNotations.
Local Open Scope list_scope.

(** ** Model: file names *)
(** str.format (era5.py l.103-111): literal text, "{{", "}}", "{name}" and "{name:spec}".  Format specifications other
    than zero padding ("02", "02d", "d") are not modelled (OtherError), nor are conversions, attributes and indices. *)
Inductive piece := Lit (c : ascii) | Field (name spec : string).
Fixpoint split_colon (s : string) : string * string :=
  match s with
  | EmptyString => (EmptyString, EmptyString)
  | String c s => if Ascii.eqb c ":" then (EmptyString, s) else let '(a, b) := split_colon s in (String c a, b)
  end.
Fixpoint parse_template (field : option string) (s : string) : res (list piece) :=
  match field, s with
  | None, EmptyString => OK []
  | None, String "{" (String "{" s) => do r <- parse_template None s; OK (Lit "{" :: r)
  | None, String "}" (String "}" s) => do r <- parse_template None s; OK (Lit "}" :: r)
  | None, String "{" s => parse_template (Some EmptyString) s
  | None, String "}" _ => Err ValueError
  | None, String c s => do r <- parse_template None s; OK (Lit c :: r)
  | Some _, EmptyString => Err ValueError
  | Some f, String "}" s => do r <- parse_template None s; OK (let '(n, spec) := split_colon f in Field n spec :: r)
  | Some _, String "{" _ => Err OtherError
  | Some f, String c s => parse_template (Some (f ++ String c EmptyString)%string) s
  end.
(** a number with at least [w] digits *)
Fixpoint ndigits (fuel : nat) (n : Z) : nat := match fuel with O => 1 | S k => if Z.ltb n 10 then 1 else S (ndigits k (n / 10)) end.
Definition format_int (w : nat) (n : Z) : string := digits (Nat.max w (ndigits 10 n)) n.
Definition digit_of (c : ascii) : option nat := let k := nat_of_ascii c in if (Nat.leb 48 k && Nat.leb k 57)%bool then Some (k - 48)%nat else None.
Definition format_spec (spec : string) : res nat :=
  match spec with
  | EmptyString | String "d" EmptyString => OK 0%nat
  | String "0" (String c EmptyString) | String "0" (String c (String "d" EmptyString)) => match digit_of c with Some w => OK w | None => Err OtherError end
  | _ => Err OtherError
  end.
(** the arguments of format: year, month, day, hour, minute, levtype, variable *)
Definition format_field (cal : calendar) (u : Z) (levtype variable : string) (name spec : string) : res string :=
  let int n := do w <- format_spec spec; OK (format_int w n) in
  let text s := match spec with EmptyString => OK s | _ => Err OtherError end in
  match date_of cal u with
  | None => Err OtherError
  | Some (y, m, d) =>
    let s := second_of_day u in
    if String.eqb name "year" then int y else if String.eqb name "month" then int m else if String.eqb name "day" then int d
    else if String.eqb name "hour" then int (s / 3600)%Z else if String.eqb name "minute" then int (s / 60 mod 60)%Z
    else if String.eqb name "levtype" then text levtype else if String.eqb name "variable" then text variable
    else Err KeyError
  end.
Fixpoint format_pieces (cal : calendar) (u : Z) (levtype variable : string) (l : list piece) : res string :=
  match l with
  | [] => OK EmptyString
  | Lit c :: l => do r <- format_pieces cal u levtype variable l; OK (String c r)
  | Field n spec :: l => do x <- format_field cal u levtype variable n spec; do r <- format_pieces cal u levtype variable l; OK (x ++ r)%string
  end.
Definition format_template (template : string) (cal : calendar) (u : Z) (levtype variable : string) : res string :=
  do l <- parse_template None template; format_pieces cal u levtype variable l.

(** ** Model: files *)
(** The coordinates of a variable and its values: for every time a value, or one per level, in every cell.  Times are
    in the calendar of the run.  (A file in another calendar has none of the times that are asked for.) *)
Inductive coord := Times (l : list Z) | Levels (l : list R) | Axis (l : list R) | Aux.
Record era5_file := mkfile { ef_variables : nat; ef_coords : list (string * coord); ef_data : list (nat -> nat -> list R) }.
Definition files := string -> option era5_file.
Fixpoint get (name : string) (l : list (string * coord)) : option coord :=
  match l with [] => None | (n, c) :: l => if String.eqb n name then Some c else get name l end.
Definition has (name : string) (l : list (string * coord)) : bool := match get name l with Some _ => true | None => false end.
(** DataArray.rename *)
Definition renamed (old new : string) (l : list (string * coord)) : list (string * coord) :=
  map (fun nc => (if String.eqb (fst nc) old then new else fst nc, snd nc)) l.
Definition rename_if (old new : string) (l : list (string * coord)) : list (string * coord) :=
  if (has old l && negb (has new l))%bool then renamed old new l else l.
(** era5.py l.68-86: open_da.  xr.open_dataarray raises ValueError unless there is exactly one variable.  (The cache:
    below.) *)
Definition open_da (fs : files) (path : string) : res era5_file :=
  match fs path with
  | None => Err FileNotFoundError
  | Some f => if Nat.eqb (ef_variables f) 1
      then OK (mkfile 1 (rename_if "pressure_level" "level" (rename_if "model_level" "level" (rename_if "valid_time" "time" (ef_coords f)))) (ef_data f))
      else Err ValueError
  end.
(** what load_data returns: the values of one time *)
Record da := mkda { da_coords : list (string * coord); da_at : nat -> nat -> list R }.
Fixpoint index_of (u : Z) (l : list Z) : res nat :=
  match l with [] => Err KeyError | t :: l => if Z.eqb t u then OK 0%nat else do k <- index_of u l; OK (S k) end.
(** era5.py l.89-121: load_data *)
Definition three_dim (variable : string) : bool := mem variable ["u"; "v"; "q"]%string.
Definition levtype_of (lt : level_type) (variable : string) : string :=
  if three_dim variable then match lt with model_levels => "_ml" | pressure_levels => "_pl" end else "".
Definition load_data (template : string) (cal : calendar) (lt : level_type) (lv : levels) (fs : files) (variable : string) (u : Z) : res da :=
  do path <- format_template template cal u (levtype_of lt variable) variable;                          (* l.103-111 *)
  do f <- open_da fs path;
  match get "time" (ef_coords f) with                                                                   (* l.112 *)
  | Some (Times ts) =>
    do k <- index_of u ts;
    let at_ := nth k (ef_data f) (fun _ _ => []) in
    do cs <- (if has "lev" (ef_coords f) then if has "level" (ef_coords f) then Err ValueError else OK (renamed "lev" "level" (ef_coords f))
              else OK (ef_coords f));                                                                   (* l.114-115 *)
    match three_dim variable, lv with                                                                   (* l.118-121 *)
    | true, Numbers l =>
      match get "level" cs with
      | Some (Levels ls) => do pos <- positions (map IZR l) ls;
          OK (mkda (map (fun nc => if String.eqb (fst nc) "level" then ("level"%string, Levels (map (fun k => nth k ls 0%R) pos)) else nc) cs)
                   (fun i j => select pos (at_ i j)))
      | _ => Err KeyError
      end
    | _, _ => OK (mkda cs at_)
    end
  | _ => Err KeyError
  end.
(** a coordinate of the data set that is assembled: those of the first variable.  (xarray would align the others with
    it: the specification asks for equal ones.) *)
Definition axis (name : string) (x : da) : res (list R) :=
  match get name (da_coords x) with Some (Axis l) | Some (Levels l) => OK l | _ => Err KeyError end.
Definition value (x : da) (i j : nat) : R := hd 0%R (da_at x i j).
(** era5.py l.37-65: get_input_data, up to the conversions that EraPrep.v models *)
Definition load_era5 (template : string) (cal : calendar) (lt : level_type) (lv : levels) (fs : files) (u : Z) : res era5_data :=
  let load v := load_data template cal lt lv fs v u in
  do q <- load "q"%string; do uu <- load "u"%string; do v <- load "v"%string; do sp <- load "sp"%string;       (* l.40-43 *)
  do (d2m, (u10, v10)) <- match lt with                                                                 (* l.44-48 *)
    | pressure_levels => do d <- load "d2m"%string; do a <- load "u10"%string; do b <- load "v10"%string; OK (d, (a, b))
    | model_levels => let none := mkda [] (fun _ _ => []) in OK (none, (none, none))
    end;
  do e <- load "e"%string; do tp <- load "tp"%string;                                                   (* l.52, l.129-130 *)
  do tcw <- match load "tcw"%string with OK x => OK (Some (value x)) | Err FileNotFoundError => OK None | Err e => Err e end;   (* l.53-59 *)
  do level <- axis "level" q; do lat <- axis "latitude" q; do lon <- axis "longitude" q;
  OK (mkera5 level lat lon
        (fun i j => mkcell (da_at q i j) (da_at uu i j) (da_at v i j) (value sp i j) (value d2m i j) (value u10 i j) (value v10 i j) (value tp i j) (value e i j))
        tcw).

(** ** Specification *)
Definition absent (name : string) (cs : list (string * coord)) : Prop := ~ In name (map fst cs).
(** a file with one variable that has the field [g] at time [u]; the time may be called time or valid_time *)
Definition era5_field (f : era5_file) (u : Z) (g : nat -> nat -> list R) : Prop :=
  ef_variables f = 1%nat /\ NoDup (map fst (ef_coords f)) /\
  exists ts k, (In ("time"%string, Times ts) (ef_coords f) \/ absent "time" (ef_coords f) /\ In ("valid_time"%string, Times ts) (ef_coords f)) /\
    NoDup ts /\ nth_error ts k = Some u /\ nth_error (ef_data f) k = Some g.
(** the levels may be called level, model_level, pressure_level or lev *)
Definition level_names : list string := ["level"; "model_level"; "pressure_level"; "lev"]%string.
Definition level_axis (f : era5_file) (ls : list R) : Prop :=
  exists n, In n level_names /\ In (n, Levels ls) (ef_coords f) /\ forall n', In n' level_names -> n' <> n -> absent n' (ef_coords f).
Definition on_grid (f : era5_file) (lat lon : list R) : Prop := In ("latitude"%string, Axis lat) (ef_coords f) /\ In ("longitude"%string, Axis lon) (ef_coords f).
(** the file of a variable holds the values [x] at [u] *)
Definition has_surface (fs : files) (path : res string) (u : Z) (lat lon : list R) (x : nat -> nat -> R) : Prop :=
  exists name f g, path = OK name /\ fs name = Some f /\ era5_field f u g /\ absent "lev" (ef_coords f) /\ on_grid f lat lon /\
    forall i j, (i < List.length lat)%nat -> (j < List.length lon)%nat -> g i j = [x i j].
(** the same on the wanted levels: those listed, in that order, or all levels of the file *)
Definition has_levels (lv : levels) (fs : files) (path : res string) (u : Z) (lat lon level : list R) (x : nat -> nat -> list R) : Prop :=
  exists name f g ls, path = OK name /\ fs name = Some f /\ era5_field f u g /\ level_axis f ls /\ NoDup ls /\ on_grid f lat lon /\
  match lv with
  | Numbers l => level = map IZR l /\ (forall z, In z l -> In (IZR z) ls) /\
      forall i j, (i < List.length lat)%nat -> (j < List.length lon)%nat -> List.length (x i j) = List.length l /\
        forall k m z, nth_error l k = Some z -> nth_error ls m = Some (IZR z) -> nth k (x i j) 0%R = nth m (g i j) 0%R
  | Shorthand _ => level = ls /\ forall i j, (i < List.length lat)%nat -> (j < List.length lon)%nat -> x i j = g i j
  end.
(** the files hold the data [d] for time [u] *)
Definition hold (template : string) (cal : calendar) (lt : level_type) (lv : levels) (fs : files) (u : Z) (d : era5_data) : Prop :=
  let lat := raw_lat d in let lon := raw_lon d in
  let path levtype v := format_template template cal u levtype v in
  let suffix := (match lt with model_levels => "_ml" | pressure_levels => "_pl" end)%string in
  has_levels lv fs (path suffix "q"%string) u lat lon (raw_level d) (fun i j => raw_q (raw_at d i j)) /\
  has_levels lv fs (path suffix "u"%string) u lat lon (raw_level d) (fun i j => raw_u (raw_at d i j)) /\
  has_levels lv fs (path suffix "v"%string) u lat lon (raw_level d) (fun i j => raw_v (raw_at d i j)) /\
  has_surface fs (path "" "sp")%string u lat lon (fun i j => raw_sp (raw_at d i j)) /\
  has_surface fs (path "" "e")%string u lat lon (fun i j => raw_e (raw_at d i j)) /\
  has_surface fs (path "" "tp")%string u lat lon (fun i j => raw_tp (raw_at d i j)) /\
  (lt = pressure_levels ->
    has_surface fs (path "" "d2m")%string u lat lon (fun i j => raw_d2m (raw_at d i j)) /\
    has_surface fs (path "" "u10")%string u lat lon (fun i j => raw_u10 (raw_at d i j)) /\
    has_surface fs (path "" "v10")%string u lat lon (fun i j => raw_v10 (raw_at d i j))) /\
  match raw_tcw d with
  | Some w => has_surface fs (path "" "tcw")%string u lat lon w
  | None => exists name, path ""%string "tcw"%string = OK name /\ fs name = None
  end.
(** the same data on the grid; dew point and wind near the surface matter on pressure levels only *)
Definition same_data (lt : level_type) (d d' : era5_data) : Prop :=
  raw_level d = raw_level d' /\ raw_lat d = raw_lat d' /\ raw_lon d = raw_lon d' /\
  (forall i j, (i < List.length (raw_lat d))%nat -> (j < List.length (raw_lon d))%nat -> let c := raw_at d i j in let c' := raw_at d' i j in
    raw_q c = raw_q c' /\ raw_u c = raw_u c' /\ raw_v c = raw_v c' /\ raw_sp c = raw_sp c' /\ raw_tp c = raw_tp c' /\ raw_e c = raw_e c' /\
    (lt = pressure_levels -> raw_d2m c = raw_d2m c' /\ raw_u10 c = raw_u10 c' /\ raw_v10 c = raw_v10 c')) /\
  match raw_tcw d, raw_tcw d' with
  | Some w, Some w' => forall i j, (i < List.length (raw_lat d))%nat -> (j < List.length (raw_lon d))%nat -> w i j = w' i j
  | None, None => True
  | _, _ => False
  end.

(** ** Coordinates *)
Lemma get_in n c cs : NoDup (map fst cs) -> In (n, c) cs -> get n cs = Some c.
Proof.
  induction cs as [|[n' c'] cs IH]; intros N H; [destruct H|]. cbn [get]. cbn in N. inversion_clear N as [|? ? N1 N2]. destruct H as [[= -> ->]|H]; [now rewrite String.eqb_refl|].
  destruct (String.eqb_spec n' n) as [->|_]; [|now apply IH]. destruct N1. now apply (in_map fst) in H.
Qed.
Lemma get_absent n cs : absent n cs -> get n cs = None.
Proof.
  unfold absent. induction cs as [|[n' c'] cs IH]; intros H; [reflexivity|]. cbn [get]. cbn in H. destruct (String.eqb_spec n' n) as [->|_]; [destruct H; auto|]. apply IH. intros Q. apply H. auto.
Qed.
Lemma get_renamed_new old new cs : get new cs = None -> get new (renamed old new cs) = get old cs.
Proof.
  induction cs as [|[n c] cs IH]; [reflexivity|]. cbn [get renamed map fst snd]. destruct (String.eqb_spec n new) as [->|Hn]; [discriminate|]. intros H.
  destruct (String.eqb_spec n old) as [->|Ho]; [now rewrite String.eqb_refl|]. destruct (String.eqb_spec n new) as [|_]; [contradiction|]. now apply IH.
Qed.
Lemma get_renamed_other n old new cs : n <> old -> n <> new -> get n (renamed old new cs) = get n cs.
Proof.
  intros Ho Hn. induction cs as [|[m c] cs IH]; [reflexivity|]. cbn [get renamed map fst snd]. destruct (String.eqb_spec m old) as [->|E].
  - destruct (String.eqb_spec new n) as [->|_]; [contradiction|]. destruct (String.eqb_spec old n) as [->|_]; [contradiction|]. exact IH.
  - destruct (String.eqb m n); [reflexivity|exact IH].
Qed.
Lemma get_rename_if_new old new cs : get new (rename_if old new cs) = match get new cs with Some c => Some c | None => get old cs end.
Proof.
  unfold rename_if, has. destruct (get new cs) eqn:E; [rewrite andb_false_r; exact E|]. destruct (get old cs) eqn:E'; cbn [andb negb]; [|exact E].
  rewrite <- E'. now apply get_renamed_new.
Qed.
Lemma get_rename_if_other n old new cs : n <> old -> n <> new -> get n (rename_if old new cs) = get n cs.
Proof. intros Ho Hn. unfold rename_if. destruct (_ && _)%bool; [now apply get_renamed_other|reflexivity]. Qed.
Lemma index_of_ok u ts k : NoDup ts -> nth_error ts k = Some u -> index_of u ts = OK k.
Proof.
  revert k. induction ts as [|t ts IH]; intros [|k] N H; try discriminate; inversion_clear N as [|? ? N1 N2]; cbn [index_of nth_error] in *.
  - injection H as ->. now rewrite Z.eqb_refl.
  - destruct (Z.eqb_spec t u) as [->|_]; [destruct N1; now apply nth_error_In in H|]. now rewrite (IH k N2 H).
Qed.
Lemma index_of_in u ts k : index_of u ts = OK k -> nth_error ts k = Some u.
Proof.
  revert k. induction ts as [|t ts IH]; intros k; cbn [index_of]; [discriminate|]. destruct (Z.eqb_spec t u) as [->|_]; [intros [= <-]; reflexivity|].
  destruct (index_of u ts) as [k'|]; [|discriminate]. intros [= <-]. now apply IH.
Qed.
Definition opened (f : era5_file) : list (string * coord) :=
  rename_if "pressure_level" "level" (rename_if "model_level" "level" (rename_if "valid_time" "time" (ef_coords f))).
Lemma open_ok fs path f u g : fs path = Some f -> era5_field f u g -> open_da fs path = OK (mkfile 1 (opened f) (ef_data f)) /\
  exists ts k, get "time" (opened f) = Some (Times ts) /\ index_of u ts = OK k /\ nth k (ef_data f) (fun _ _ => []) = g.
Proof.
  intros E (V & N & ts & k & T & Nt & Hk & Hg). unfold open_da. rewrite E, V. cbn [Nat.eqb]. split; [reflexivity|]. exists ts, k. split; [|split].
  - unfold opened. rewrite !(get_rename_if_other "time") by discriminate. rewrite get_rename_if_new. destruct T as [T|[A T]].
    + now rewrite (get_in _ _ _ N T).
    + now rewrite (get_absent _ _ A), (get_in _ _ _ N T).
  - now apply index_of_ok.
  - now apply nth_error_nth.
Qed.
Lemma opened_other f n : ~ In n ["time"; "valid_time"; "level"; "model_level"; "pressure_level"]%string -> get n (opened f) = get n (ef_coords f).
Proof. intros H. cbn in H. unfold opened. rewrite !get_rename_if_other; [reflexivity|..]; intros ->; apply H; auto 10. Qed.
Lemma opened_level f : get "level" (opened f) = match get "level" (ef_coords f) with Some c => Some c | None => match get "model_level" (ef_coords f) with Some c => Some c | None => get "pressure_level" (ef_coords f) end end.
Proof.
  unfold opened. rewrite get_rename_if_new. rewrite (get_rename_if_new "model_level"). rewrite !(get_rename_if_other "level") by discriminate.
  rewrite !(get_rename_if_other "model_level") by discriminate. rewrite !(get_rename_if_other "pressure_level") by discriminate.
  destruct (get "level" (ef_coords f)); [reflexivity|]. now destruct (get "model_level" (ef_coords f)).
Qed.
(** the coordinates after the renaming of "lev" *)
Definition final (f : era5_file) : list (string * coord) := if has "lev" (opened f) then renamed "lev" "level" (opened f) else opened f.
Lemma final_level f ls : NoDup (map fst (ef_coords f)) -> level_axis f ls -> (has "lev" (opened f) && has "level" (opened f))%bool = false /\ get "level" (final f) = Some (Levels ls).
Proof.
  intros N (n & Hn & Hl & Ha). apply (get_in _ _ _ N) in Hl. unfold final, has. rewrite (opened_other f "lev") by (cbn; intuition discriminate). 
  assert (A : forall n', In n' level_names -> n' <> n -> get n' (ef_coords f) = None) by (intros n' H1 H2; apply get_absent; now apply Ha).
  unfold level_names in *. cbn [In] in Hn. destruct Hn as [<-|[<-|[<-|[<-|[]]]]].
  - rewrite (A "lev"%string) by (cbn; auto || discriminate). rewrite opened_level, Hl. auto.
  - rewrite (A "lev"%string) by (cbn; auto || discriminate). rewrite opened_level, Hl, (A "level"%string) by (cbn; auto || discriminate). auto.
  - rewrite (A "lev"%string) by (cbn; auto || discriminate). rewrite opened_level, Hl, (A "level"%string), (A "model_level"%string) by (cbn; auto || discriminate). auto.
  - rewrite Hl. assert (G : get "level" (opened f) = None) by (rewrite opened_level, (A "level"%string), (A "model_level"%string), (A "pressure_level"%string) by (cbn; auto 10 || discriminate); reflexivity).
    rewrite G. split; [reflexivity|]. rewrite get_renamed_new by exact G. rewrite (opened_other f "lev") by (cbn; intuition discriminate). exact Hl.
Qed.
Lemma final_axis f n : ~ In n ["time"; "valid_time"; "level"; "model_level"; "pressure_level"; "lev"]%string -> get n (final f) = get n (ef_coords f).
Proof.
  intros H. cbn in H. unfold final. destruct (has _ _).
  - rewrite get_renamed_other by (intros ->; apply H; auto 10). apply opened_other. cbn. intuition.
  - apply opened_other. cbn. intuition.
Qed.
Lemma get_map_other n h cs : n <> "level"%string -> get n (map (fun nc => if String.eqb (fst nc) "level" then ("level"%string, h) else nc) cs) = get n cs.
Proof.
  intros Hn. induction cs as [|[m c] cs IH]; [reflexivity|]. cbn [map get fst]. destruct (String.eqb_spec m "level") as [->|E]; cbn [get]; [|now rewrite IH].
  destruct (String.eqb_spec "level" n); [congruence|exact IH].
Qed.
Lemma get_map_level h cs : get "level" cs <> None -> get "level" (map (fun nc => if String.eqb (fst nc) "level" then ("level"%string, h) else nc) cs) = Some h.
Proof.
  induction cs as [|[m c] cs IH]; [contradiction|]. cbn [map get fst]. destruct (String.eqb_spec m "level") as [->|E]; cbn [get]; [reflexivity|].
  destruct (String.eqb_spec m "level"); [contradiction|exact IH].
Qed.

(** ** Loading one variable *)
Lemma load_surface template cal lt lv fs v u lat lon x : three_dim v = false -> has_surface fs (format_template template cal u "" v) u lat lon x ->
  exists y, load_data template cal lt lv fs v u = OK y /\ forall i j, (i < List.length lat)%nat -> (j < List.length lon)%nat -> value y i j = x i j.
Proof.
  intros H3 (name & f & g & En & Ef & Fd & Al & _ & Hg). unfold load_data, levtype_of. rewrite H3, En. cbn [bind].
  destruct (open_ok fs name f u g Ef Fd) as (-> & ts & k & Et & Ek & Eg). cbn [bind ef_coords ef_data]. rewrite Et, Ek. cbn [bind]. cbn zeta.
  assert (Hl : has "lev" (opened f) = false) by (unfold has; rewrite opened_other by (cbn; intuition discriminate); now rewrite (get_absent _ _ Al)).
  rewrite Hl. cbn [bind]. rewrite Eg. eexists. split; [reflexivity|]. intros i j Hi Hj. unfold value. cbn [da_at]. now rewrite Hg.
Qed.
Lemma load_levels template cal lt lv fs v u lat lon level x : three_dim v = true ->
  has_levels lv fs (format_template template cal u (match lt with model_levels => "_ml" | pressure_levels => "_pl" end) v) u lat lon level x ->
  exists y, load_data template cal lt lv fs v u = OK y /\ axis "level" y = OK level /\ axis "latitude" y = OK lat /\ axis "longitude" y = OK lon /\
    forall i j, (i < List.length lat)%nat -> (j < List.length lon)%nat -> da_at y i j = x i j.
Proof.
  intros H3 (name & f & g & ls & En & Ef & Fd & La & Nl & (G1 & G2) & Hg). unfold load_data, levtype_of. rewrite H3, En. cbn [bind].
  destruct (open_ok fs name f u g Ef Fd) as (-> & ts & k & Et & Ek & Eg). cbn [bind ef_coords ef_data]. rewrite Et, Ek. cbn [bind]. cbn zeta. rewrite Eg.
  destruct Fd as (_ & N & _). destruct (final_level f ls N La) as [Hc Hf].
  replace (if has "lev" (opened f) then if has "level" (opened f) then Err ValueError else OK (renamed "lev" "level" (opened f)) else OK (opened f))
    with (OK (final f)) by (unfold final; destruct (has "lev" (opened f)), (has "level" (opened f)); cbn in Hc; congruence || reflexivity).
  cbn [bind]. apply (get_in _ _ _ N) in G1. apply (get_in _ _ _ N) in G2.
  assert (A1 : get "latitude" (final f) = Some (Axis lat)) by (rewrite final_axis by (cbn; intuition discriminate); exact G1).
  assert (A2 : get "longitude" (final f) = Some (Axis lon)) by (rewrite final_axis by (cbn; intuition discriminate); exact G2).
  destruct lv as [l|s].
  - destruct Hg as (-> & Hin & Hx). rewrite Hf.
    destruct (positions_ok (map IZR l) ls) as (pos & Ep & Lp & P); [intros y Hy; apply in_map_iff in Hy; destruct Hy as (z & <- & Hz); now apply Hin|].
    rewrite Ep. cbn [bind]. eexists. split; [reflexivity|]. rewrite map_length in Lp.
    assert (P' : forall k z, nth_error l k = Some z -> nth_error ls (nth k pos 0%nat) = Some (IZR z)) by (intros k0 z Hk; apply P; rewrite nth_error_map, Hk; reflexivity).
    unfold axis. cbn [da_coords da_at]. rewrite (get_map_other "latitude"), (get_map_other "longitude") by discriminate. rewrite get_map_level by congruence. rewrite A1, A2.
    split; [|split; [reflexivity|split; [reflexivity|]]].
    + f_equal. apply (nth_ext _ _ 0%R 0%R); [rewrite !map_length; exact Lp|]. intros k0 Hk. rewrite map_length, Lp in Hk.
      destruct (nth_error l k0) as [z|] eqn:Ez; [|apply nth_error_None in Ez; lia].
      transitivity (IZR z); [|symmetry; apply nth_error_nth; rewrite nth_error_map, Ez; reflexivity].
      apply nth_error_nth. rewrite nth_error_map. rewrite (nth_error_nth' pos 0%nat) by lia. cbn [option_map]. f_equal. apply nth_error_nth. now apply P'.
    + intros i j Hi Hj. destruct (Hx i j Hi Hj) as [Lx Q]. apply (select_eq pos (g i j) (x i j) (List.length l) Lp Lx). intros k0 Hk.
      destruct (nth_error l k0) as [z|] eqn:Ez; [|apply nth_error_None in Ez; lia]. apply (Q k0 _ z Ez). now apply P'.
  - destruct Hg as (-> & Hx). eexists. split; [reflexivity|]. unfold axis. cbn [da_coords da_at]. rewrite Hf, A1, A2. do 3 (split; [reflexivity|]).
    intros i j Hi Hj. now rewrite Hx.
Qed.
(** ** C104 *)
(** Wherever the files hold data for a time, these data are loaded; total column water may be missing. *)
Theorem C104_files_are_loaded template cal lt lv fs u d : hold template cal lt lv fs u d ->
  exists d', load_era5 template cal lt lv fs u = OK d' /\ same_data lt d d'.
Proof.
  intros (Hq & Hu & Hv & Hsp & He & Htp & Hpl & Htcw). cbn zeta in *.
  destruct (load_levels template cal lt lv fs "q" u _ _ _ _ eq_refl Hq) as (q & Eq & X1 & X2 & X3 & Vq).
  destruct (load_levels template cal lt lv fs "u" u _ _ _ _ eq_refl Hu) as (uu & Eu & _ & _ & _ & Vu).
  destruct (load_levels template cal lt lv fs "v" u _ _ _ _ eq_refl Hv) as (v & Ev & _ & _ & _ & Vv).
  destruct (load_surface template cal lt lv fs "sp" u _ _ _ eq_refl Hsp) as (sp & Esp & Vsp).
  destruct (load_surface template cal lt lv fs "e" u _ _ _ eq_refl He) as (e & Ee & Ve).
  destruct (load_surface template cal lt lv fs "tp" u _ _ _ eq_refl Htp) as (tp & Etp & Vtp).
  assert (T : exists w, match load_data template cal lt lv fs "tcw" u with OK x => OK (Some (value x)) | Err FileNotFoundError => OK None | Err e => Err e end = OK w /\
    match raw_tcw d, w with Some a, Some b => forall i j, (i < List.length (raw_lat d))%nat -> (j < List.length (raw_lon d))%nat -> a i j = b i j | None, None => True | _, _ => False end).
  { destruct (raw_tcw d) as [w|].
    - destruct (load_surface template cal lt lv fs "tcw" u _ _ _ eq_refl Htcw) as (y & -> & Vy). exists (Some (value y)). split; [reflexivity|]. intros i j Hi Hj. now rewrite Vy.
    - destruct Htcw as (name & En & Ef). exists None. split; [|exact I]. unfold load_data. change (levtype_of lt "tcw") with ""%string. rewrite En. cbn [bind]. unfold open_da. rewrite Ef. reflexivity. }
  destruct T as (w & Ew & Vw). unfold load_era5. cbn zeta. rewrite Eq, Eu, Ev, Esp. cbn [bind].
  destruct lt.
  - cbn [bind]. rewrite Ee, Etp. cbn [bind]. rewrite Ew. cbn [bind]. rewrite X1, X2, X3. cbn [bind]. eexists. split; [reflexivity|].
    unfold same_data. cbn [raw_level raw_lat raw_lon raw_at raw_tcw raw_q raw_u raw_v raw_sp raw_tp raw_e raw_d2m raw_u10 raw_v10]. do 3 (split; [reflexivity|]). split; [|exact Vw].
    intros i j Hi Hj. rewrite Vq, Vu, Vv, Vsp, Vtp, Ve by assumption. repeat (split; [reflexivity|]). discriminate.
  - destruct (Hpl eq_refl) as (Hd & H10 & Hv10).
    destruct (load_surface template cal pressure_levels lv fs "d2m" u _ _ _ eq_refl Hd) as (d2m & -> & Vd).
    destruct (load_surface template cal pressure_levels lv fs "u10" u _ _ _ eq_refl H10) as (u10 & -> & V10).
    destruct (load_surface template cal pressure_levels lv fs "v10" u _ _ _ eq_refl Hv10) as (v10 & -> & Vv10).
    cbn [bind]. rewrite Ee, Etp. cbn [bind]. rewrite Ew. cbn [bind]. rewrite X1, X2, X3. cbn [bind]. eexists. split; [reflexivity|].
    unfold same_data. cbn [raw_level raw_lat raw_lon raw_at raw_tcw raw_q raw_u raw_v raw_sp raw_tp raw_e raw_d2m raw_u10 raw_v10]. do 3 (split; [reflexivity|]). split; [|exact Vw].
    intros i j Hi Hj. rewrite Vq, Vu, Vv, Vsp, Vtp, Ve by assumption. repeat (split; [reflexivity|]). intros _. rewrite Vd, V10, Vv10 by assumption. auto.
Qed.
(** Nothing is made up: if data are returned for a time, the file of every variable exists, has one variable, and has
    that time; only a missing file of total column water is passed over. *)
Definition found (fs : files) (path : res string) (u : Z) : Prop :=
  exists name f ts, path = OK name /\ fs name = Some f /\ ef_variables f = 1%nat /\ In u ts /\
    (In ("time"%string, Times ts) (ef_coords f) \/ absent "time" (ef_coords f) /\ In ("valid_time"%string, Times ts) (ef_coords f)).
Lemma get_some n c cs : get n cs = Some c -> In (n, c) cs.
Proof.
  induction cs as [|[m c'] cs IH]; cbn [get]; [discriminate|]. destruct (String.eqb_spec m n) as [->|_]; [intros [= ->]; left; reflexivity|]. intros H. right. now apply IH.
Qed.
Lemma get_none n cs : get n cs = None -> absent n cs.
Proof.
  unfold absent. induction cs as [|[m c'] cs IH]; cbn [get]; [intros _ []|]. destruct (String.eqb_spec m n) as [->|E]; [discriminate|]. intros H [Q|Q]; [cbn in Q; congruence|]. now apply IH.
Qed.
Lemma load_found template cal lt lv fs v u y : load_data template cal lt lv fs v u = OK y -> found fs (format_template template cal u (levtype_of lt v) v) u.
Proof.
  unfold load_data. destruct (format_template _ _ _ _ _) as [name|]; [|discriminate]. cbn [bind]. unfold open_da. destruct (fs name) as [f|] eqn:Ef; [|discriminate].
  destruct (Nat.eqb_spec (ef_variables f) 1) as [V|]; [|discriminate]. cbn [bind ef_coords ef_data]. fold (opened f). destruct (get "time" (opened f)) as [[ts|ls|ls|]|] eqn:Et; try discriminate.
  destruct (index_of u ts) as [k|] eqn:Ek; [|discriminate]. intros _. exists name, f, ts. split; [reflexivity|]. split; [exact Ef|]. split; [exact V|].
  split; [apply index_of_in in Ek; now apply nth_error_In in Ek|]. unfold opened in Et. rewrite !(get_rename_if_other "time") in Et by discriminate. rewrite get_rename_if_new in Et.
  destruct (get "time" (ef_coords f)) eqn:E.
  - left. injection Et as ->. now apply get_some.
  - right. split; [now apply get_none|now apply get_some].
Qed.
Lemma bind_fnf {A B} (x : res A) (k : A -> res B) : x <> Err FileNotFoundError -> (forall a, k a <> Err FileNotFoundError) -> bind x k <> Err FileNotFoundError.
Proof. destruct x as [a|e]; cbn [bind]; intros H K; [apply K|intros [= ->]; now apply H]. Qed.
Lemma parse_fnf n : forall s f, (String.length s <= n)%nat -> parse_template f s <> Err FileNotFoundError.
Proof.
  induction n as [|n IH]; intros s f Hs.
  - destruct s; [|cbn in Hs; lia]. destruct f; discriminate.
  - destruct s as [|c s]; [destruct f; discriminate|]. cbn in Hs.
    assert (A : forall f, parse_template f s <> Err FileNotFoundError) by (intros; apply IH; lia).
    assert (B : forall c' s', s = String c' s' -> forall f, parse_template f s' <> Err FileNotFoundError) by (intros c' s' -> ?; apply IH; cbn in Hs; lia).
    destruct f as [f|].
    + destruct c as [[] [] [] [] [] [] [] []]; cbn [parse_template]; try apply A; try discriminate; apply bind_fnf; (apply A || discriminate).
    + destruct c as [[] [] [] [] [] [] [] []]; cbn [parse_template]; try (apply bind_fnf; [apply A|discriminate]).
      * destruct s as [|c' s']; [discriminate|]. destruct c' as [[] [] [] [] [] [] [] []]; try discriminate; try apply A; try (apply bind_fnf; [apply (B _ _ eq_refl)|discriminate]).
      * destruct s as [|c' s']; [discriminate|]. destruct c' as [[] [] [] [] [] [] [] []]; try discriminate; try apply A; try (apply bind_fnf; [apply (B _ _ eq_refl)|discriminate]).
Qed.
Lemma spec_fnf s : format_spec s <> Err FileNotFoundError.
Proof.
  unfold format_spec. repeat match goal with |- match ?x with _ => _ end <> _ => destruct x; try discriminate end.
Qed.
Lemma template_fnf template cal u levtype v : format_template template cal u levtype v <> Err FileNotFoundError.
Proof.
  unfold format_template. apply bind_fnf; [eapply parse_fnf; reflexivity|]. intros l. induction l as [|[c|n s] l IH]; cbn [format_pieces]; [discriminate| |].
  - apply bind_fnf; [exact IH|discriminate].
  - apply bind_fnf; [|intros x; apply bind_fnf; [exact IH|discriminate]]. unfold format_field. cbn zeta. destruct (date_of cal u) as [[[y m] d]|]; [|discriminate].
    repeat match goal with |- (if ?b then _ else _) <> _ => destruct b end; try discriminate; try (apply bind_fnf; [apply spec_fnf|discriminate]); destruct s; discriminate.
Qed.
Theorem C104_no_silent_gaps template cal lt lv fs u d : load_era5 template cal lt lv fs u = OK d ->
  let path levtype v := format_template template cal u levtype v in
  let suffix := (match lt with model_levels => "_ml" | pressure_levels => "_pl" end)%string in
  (forall v, In v ["q"; "u"; "v"]%string -> found fs (path suffix v) u) /\
  (forall v, In v ["sp"; "e"; "tp"]%string -> found fs (path ""%string v) u) /\
  (lt = pressure_levels -> forall v, In v ["d2m"; "u10"; "v10"]%string -> found fs (path ""%string v) u) /\
  match raw_tcw d with
  | Some _ => found fs (path "" "tcw")%string u
  | None => exists name, path ""%string "tcw"%string = OK name /\ fs name = None
  end.
Proof.
  intros E path suffix. unfold load_era5 in E. cbn zeta in E.
  destruct (load_data _ _ _ _ _ "q" u) as [q|] eqn:Eq; [|discriminate]. destruct (load_data _ _ _ _ _ "u" u) as [uu|] eqn:Eu; [|discriminate].
  destruct (load_data _ _ _ _ _ "v" u) as [v|] eqn:Ev; [|discriminate]. destruct (load_data _ _ _ _ _ "sp" u) as [sp|] eqn:Esp; [|discriminate]. cbn [bind] in E.
  match type of E with bind ?x _ = _ => destruct x as [[d2m [u10 v10]]|] eqn:Epl; [|discriminate] end. cbn [bind] in E.
  destruct (load_data _ _ _ _ _ "e" u) as [e|] eqn:Ee; [|discriminate]. destruct (load_data _ _ _ _ _ "tp" u) as [tp|] eqn:Etp; [|discriminate]. cbn [bind] in E.
  apply load_found in Eq, Eu, Ev, Esp, Ee, Etp.
  split; [intros w [<-|[<-|[<-|[]]]]; assumption|]. split; [intros w [<-|[<-|[<-|[]]]]; assumption|]. split.
  - intros ->. destruct (load_data _ _ _ _ _ "d2m" u) as [a|] eqn:E1; [|discriminate]. destruct (load_data _ _ _ _ _ "u10" u) as [b|] eqn:E2; [|discriminate].
    destruct (load_data _ _ _ _ _ "v10" u) as [c|] eqn:E3; [|discriminate]. apply load_found in E1, E2, E3. intros w [<-|[<-|[<-|[]]]]; assumption.
  - destruct (load_data _ _ _ _ _ "tcw" u) as [tcw|ex] eqn:Et.
    + cbn [bind] in E. repeat match type of E with bind ?x _ = _ => destruct x; [|discriminate]; cbn [bind] in E end. injection E as <-. cbn [raw_tcw]. now apply load_found in Et.
    + destruct ex; try discriminate. cbn [bind] in E. repeat match type of E with bind ?x _ = _ => destruct x; [|discriminate]; cbn [bind] in E end. injection E as <-. cbn [raw_tcw].
      unfold load_data in Et. change (levtype_of lt "tcw") with ""%string in Et. fold (path ""%string "tcw"%string) in Et. destruct (path ""%string "tcw"%string) as [name|e'] eqn:Ep; cbn [bind] in Et.
      * exists name. split; [reflexivity|]. unfold open_da in Et. destruct (fs name) as [f|]; [|reflexivity]. exfalso. revert Et.
        destruct (Nat.eqb _ _); [|discriminate]. cbn [bind ef_coords ef_data]. destruct (get "time" _) as [[ts| | |]|]; try discriminate.
        destruct (index_of u ts) eqn:Ei; cbn [bind].
        -- destruct (has "lev" _); [destruct (has "level" _); discriminate|discriminate].
        -- clear -Ei. revert e0 Ei. induction ts as [|t ts IH]; cbn [index_of]; intros e0; [intros [= <-]; discriminate|]. destruct (Z.eqb t u); [discriminate|].
           destruct (index_of u ts); cbn [bind]; [discriminate|]. intros [= <-]. eauto.
      * exfalso. apply (template_fnf template cal u "" "tcw"). unfold path in Ep. congruence.
Qed.

(** ** C104: names *)
(** no braces *)
Fixpoint plain (s : string) : Prop := match s with EmptyString => True | String c s => c <> "{"%char /\ c <> "}"%char /\ plain s end.
Definition lits (s : string) : list piece := map Lit (list_ascii_of_string s).
Lemma parse_plain a : plain a -> forall s l, parse_template None s = OK l -> parse_template None (a ++ s)%string = OK (lits a ++ l).
Proof.
  induction a as [|c a IH]; intros H s l E; [exact E|]. destruct H as (H1 & H2 & H3). specialize (IH H3 s l E). cbn [String.append lits list_ascii_of_string map app].
  destruct c as [[] [] [] [] [] [] [] []]; cbn [parse_template]; try (rewrite IH; reflexivity); [now contradiction H1|now contradiction H2].
Qed.
Lemma format_lits cal u levtype v a : forall l, format_pieces cal u levtype v (lits a ++ l) = (do r <- format_pieces cal u levtype v l; OK (a ++ r)%string).
Proof.
  induction a as [|c a IH]; intros l; cbn [lits list_ascii_of_string map app format_pieces].
  - destruct (format_pieces _ _ _ _ l); reflexivity.
  - change (map Lit (list_ascii_of_string a)) with (lits a). rewrite IH. destruct (format_pieces _ _ _ _ l); reflexivity.
Qed.
Lemma two_digits n : (0 <= n < 100)%Z -> format_int 2 n = digits 2 n.
Proof.
  intros H. unfold format_int. replace (Nat.max 2 (ndigits 10 n)) with 2%nat; [reflexivity|]. cbn [ndigits]. destruct (Z.ltb_spec n 10); [reflexivity|].
  assert (n / 10 < 10)%Z by (apply Z.div_lt_upper_bound; lia). destruct (Z.ltb_spec (n / 10) 10); [reflexivity|lia].
Qed.
Lemma four_digits n : (1000 <= n <= 9999)%Z -> format_int 0 n = digits 4 n.
Proof.
  intros H. unfold format_int. replace (Nat.max 0 (ndigits 10 n)) with 4%nat; [reflexivity|]. cbn [ndigits].
  assert (100 <= n / 10 <= 999)%Z by (split; [apply Z.div_le_lower_bound; lia|assert (n / 10 < 1000)%Z by (apply Z.div_lt_upper_bound; lia); lia]).
  assert (10 <= n / 10 / 10 <= 99)%Z by (split; [apply Z.div_le_lower_bound; lia|assert (n / 10 / 10 < 100)%Z by (apply Z.div_lt_upper_bound; lia); lia]).
  assert (n / 10 / 10 / 10 < 10)%Z by (apply Z.div_lt_upper_bound; lia).
  repeat match goal with |- context [Z.ltb ?a ?b] => destruct (Z.ltb_spec a b); try lia end.
Qed.
(** the templates of example_config.yaml (l.7) and of the documentation (config.py l.85), after any text without braces *)
Definition per_day : string := "ERA5_{year}-{month:02d}-{day:02d}{levtype}_{variable}.nc".
Definition per_month : string := "/{year}/{month:02}/".
(** There is one file for every day and variable, named after them. *)
Theorem C104_file_names prefix cal u levtype v : plain prefix -> four_digit_year cal u ->
  format_template (prefix ++ per_day) cal u levtype v = OK (prefix ++ "ERA5_" ++ strf_day cal u ++ levtype ++ "_" ++ v ++ ".nc")%string /\
  exists y m d, date_of cal u = Some (y, m, d) /\
    format_template (prefix ++ per_month ++ per_day) cal u levtype v =
      OK (prefix ++ "/" ++ digits 4 y ++ "/" ++ digits 2 m ++ "/" ++ "ERA5_" ++ strf_day cal u ++ levtype ++ "_" ++ v ++ ".nc")%string.
Proof.
  intros Hp (y & m & d & E & Hy). destruct (civil_bounds _ _ _ _ _ (date_of_civil _ _ _ E)) as (By & Bm & Bd).
  assert (F : forall l, format_pieces cal u levtype v (lits prefix ++ l) = (do r <- format_pieces cal u levtype v l; OK (prefix ++ r)%string)) by (intros; apply format_lits).
  assert (Fy : format_field cal u levtype v "year" "" = OK (digits 4 y)) by (rewrite <- (four_digits y) by lia; unfold format_field; rewrite E; reflexivity).
  assert (Fm : format_field cal u levtype v "month" "02d" = OK (digits 2 m)) by (rewrite <- (two_digits m) by lia; unfold format_field; rewrite E; reflexivity).
  assert (Fm' : format_field cal u levtype v "month" "02" = OK (digits 2 m)) by (rewrite <- (two_digits m) by lia; unfold format_field; rewrite E; reflexivity).
  assert (Fd : format_field cal u levtype v "day" "02d" = OK (digits 2 d)) by (rewrite <- (two_digits d) by lia; unfold format_field; rewrite E; reflexivity).
  assert (Fl : format_field cal u levtype v "levtype" "" = OK levtype) by (unfold format_field; rewrite E; reflexivity).
  assert (Fv : format_field cal u levtype v "variable" "" = OK v) by (unfold format_field; rewrite E; reflexivity).
  set (L := [Field "year" ""; Lit "-"; Field "month" "02d"; Lit "-"; Field "day" "02d"; Field "levtype" ""; Lit "_"; Field "variable" ""]%string ++ lits ".nc").
  assert (P : parse_template None per_day = OK (lits "ERA5_" ++ L)) by reflexivity.
  assert (P' : parse_template None (per_month ++ per_day)%string = OK (Lit "/" :: Field "year" "" :: Lit "/" :: Field "month" "02" :: Lit "/" :: lits "ERA5_" ++ L)) by reflexivity.
  assert (G : format_pieces cal u levtype v (lits "ERA5_" ++ L) = OK ("ERA5_" ++ strf_day cal u ++ levtype ++ "_" ++ v ++ ".nc")%string).
  { rewrite format_lits. unfold L. cbn [format_pieces app]. rewrite Fy, Fm, Fd, Fl, Fv. cbn [bind]. rewrite <- (app_nil_r (lits ".nc")), format_lits. cbn [format_pieces bind].
    unfold strf_day. rewrite E. rewrite !append_assoc. reflexivity. }
  split; [|exists y, m, d; split; [exact E|]].
  - unfold format_template. rewrite (parse_plain prefix Hp _ _ P). cbn [bind]. rewrite F, G. reflexivity.
  - unfold format_template. rewrite (parse_plain prefix Hp _ _ P'). cbn [bind]. rewrite F. cbn [format_pieces]. rewrite G, Fy, Fm'. cbn [bind]. reflexivity.
Qed.
(** Different days or variables have different files. *)
Definition era5_variables : list string := ["q"; "u"; "v"; "sp"; "d2m"; "u10"; "v10"; "e"; "tp"; "tcw"]%string.
Theorem C104_names_differ prefix cal lt u u' v v' name : plain prefix -> four_digit_year cal u -> four_digit_year cal u' -> In v era5_variables -> In v' era5_variables ->
  format_template (prefix ++ per_day) cal u (levtype_of lt v) v = OK name -> format_template (prefix ++ per_day) cal u' (levtype_of lt v') v' = OK name ->
  (u / day_us = u' / day_us)%Z /\ v = v'.
Proof.
  intros Hp Y Y' Hv Hv'. destruct (C104_file_names prefix cal u (levtype_of lt v) v Hp Y) as [-> _]. destruct (C104_file_names prefix cal u' (levtype_of lt v') v' Hp Y') as [-> _].
  intros [= <-] [= H]. apply append_inj in H; [|reflexivity]. destruct H as [_ H]. cbn in H. injection H as H.
  apply append_inj in H; [|now rewrite !strf_day_length]. destruct H as [H1 H2]. split; [symmetry in H1; now apply strf_day_inj in H1|].
  clear -Hv Hv' H2. unfold era5_variables in *. cbn [In] in Hv, Hv'. destruct lt;
  repeat (destruct Hv as [<-|Hv]; [repeat (destruct Hv' as [<-|Hv']; [reflexivity || discriminate H2|]); destruct Hv'|]); destruct Hv.
Qed.

(** ** C104: the cache of opened files *)
(** functools.lru_cache(maxsize=16) on open_da (l.68): results by path, the latest used first; errors are not kept *)
Definition lru := list (string * era5_file).
Fixpoint cached (path : string) (c : lru) : option era5_file := match c with [] => None | (p, f) :: c => if String.eqb p path then Some f else cached path c end.
Definition forget (path : string) (c : lru) : lru := filter (fun pf => negb (String.eqb (fst pf) path)) c.
Definition open_cached (fs : files) (path : string) (c : lru) : res era5_file * lru :=
  match cached path c with
  | Some f => (OK f, (path, f) :: forget path c)
  | None => match open_da fs path with OK f => (OK f, firstn 16 ((path, f) :: c)) | Err e => (Err e, c) end
  end.
Fixpoint opens (fs : files) (paths : list string) (c : lru) : list (res era5_file) * lru :=
  match paths with [] => ([], c) | p :: l => let '(r, c) := open_cached fs p c in let '(rs, c) := opens fs l c in (r :: rs, c) end.
(** As long as the files do not change, any sequence of calls gives what it would give without the cache, and no more
    than 16 files are kept. *)
Definition good_cache (fs : files) (c : lru) : Prop := (forall p f, In (p, f) c -> open_da fs p = OK f) /\ NoDup (map fst c) /\ (List.length c <= 16)%nat.
Lemma cached_in p f c : cached p c = Some f -> In (p, f) c.
Proof. induction c as [|[p' f'] c IH]; cbn [cached]; [discriminate|]. destruct (String.eqb_spec p' p) as [->|]; [intros [= ->]; now left|right; auto]. Qed.
Lemma cached_none p c : cached p c = None -> ~ In p (map fst c).
Proof. induction c as [|[p' f'] c IH]; cbn [cached]; [intros _ []|]. destruct (String.eqb_spec p' p) as [->|N]; [discriminate|]. intros H [Q|Q]; [cbn in Q; congruence|now apply IH]. Qed.
Lemma NoDup_filter_fst {A B} (g : A * B -> bool) (l : list (A * B)) : NoDup (map fst l) -> NoDup (map fst (filter g l)).
Proof.
  induction l as [|x l IH]; intros N; [constructor|]. cbn in N. inversion_clear N as [|? ? N1 N2]. cbn [filter]. destruct (g x); [|now apply IH]. cbn. constructor; [|now apply IH].
  intros H. apply N1. apply in_map_iff in H. destruct H as (y & <- & Hy). apply filter_In in Hy. apply in_map. tauto.
Qed.
Lemma filter_length_lt {A} (g : A -> bool) l x : In x l -> g x = false -> (List.length (filter g l) < List.length l)%nat.
Proof.
  induction l as [|y l IH]; intros H E; [destruct H|]. cbn [filter]. destruct H as [->|H].
  - rewrite E. cbn. clear. induction l as [|y l IH]; [cbn; lia|]. cbn [filter]. destruct (g y); cbn in *; lia.
  - destruct (g y); cbn; specialize (IH H E); lia.
Qed.
Lemma NoDup_firstn {A} k (l : list A) : NoDup l -> NoDup (firstn k l).
Proof. revert l. induction k; intros [|x l] N; try constructor; cbn; inversion_clear N; auto. intros H'. apply H. revert H'. clear. revert k. induction l; intros [|k]; cbn; intuition. right. eauto. Qed.
Lemma open_cached_ok fs p c : good_cache fs c -> fst (open_cached fs p c) = open_da fs p /\ good_cache fs (snd (open_cached fs p c)).
Proof.
  intros (H1 & H2 & H3). unfold open_cached. destruct (cached p c) as [f|] eqn:E.
  - pose proof (cached_in _ _ _ E) as Hin. cbn [fst snd]. split; [symmetry; now apply H1|]. split; [|split].
    + intros p' f' [[= <- <-]|H]; [now apply H1|]. apply filter_In in H. now apply H1.
    + cbn. constructor; [|now apply NoDup_filter_fst]. intros H. apply in_map_iff in H. destruct H as ([p' f'] & <- & H). apply filter_In in H. destruct H as [_ H]. cbn in H. rewrite String.eqb_refl in H. discriminate.
    + cbn. pose proof (filter_length_lt (fun pf => negb (String.eqb (fst pf) p)) c (p, f) Hin) as L. cbn in L. rewrite String.eqb_refl in L. specialize (L eq_refl). unfold forget. lia.
  - destruct (open_da fs p) as [f|e] eqn:Eo; cbn [fst snd]; [|split; [reflexivity|now repeat split]]. split; [reflexivity|]. split; [|split].
    + intros p' f' H. assert (In (p', f') ((p, f) :: c)) as [[= <- <-]|Q] by (rewrite <- (firstn_skipn 16); apply in_or_app; now left); [exact Eo|now apply H1].
    + rewrite <- firstn_map. apply NoDup_firstn. cbn. constructor; [now apply cached_none|exact H2].
    + rewrite firstn_length. lia.
Qed.
Theorem C104_cache_is_transparent fs paths : fst (opens fs paths []) = map (open_da fs) paths /\ (List.length (snd (opens fs paths [])) <= 16)%nat.
Proof.
  assert (H : forall c, good_cache fs c -> fst (opens fs paths c) = map (open_da fs) paths /\ good_cache fs (snd (opens fs paths c))).
  { induction paths as [|p l IH]; intros c Hc; [split; [reflexivity|exact Hc]|]. cbn [opens map]. pose proof (open_cached_ok fs p c Hc) as [Q1 Q2].
    destruct (open_cached fs p c) as [r c1]. cbn [fst snd] in *. specialize (IH c1 Q2). destruct (opens fs l c1) as [rs c2]. cbn [fst snd] in *. destruct IH as [-> G]. split; [congruence|exact G]. }
  destruct (H []) as [E (_ & _ & L)]; [repeat split; [intros ? ? []|constructor|cbn; lia]|]. auto.
Qed.

(** ** C105: from files to preprocessed data *)
(** ** Model *)
(** shared.py l.141-213 with era5.py: one time *)
Definition preprocess_files argsort (st : level_settings) (template : string) (lt : level_type) (lv : levels) (fs : files) (p : prepcfg) (u : Z) : res (dataset out_cell) :=
  do d <- load_era5 template (pc_cal p) lt lv fs u; preprocess_time argsort st (nseconds p) d.
Definition preprocesses_files argsort st template lt lv fs (p : prepcfg) (data : Z -> slice Rnum) : Prop :=
  forall t, In t (input_dates p) -> exists o, preprocess_files argsort st template lt lv fs p t = OK o /\ data t = slice_of o.
(** the same settings, once for the files and once for the columns *)
Definition same_settings (st : level_settings) (lt : level_type) (lv : levels) : Prop :=
  match st with OnPressureLevels _ _ _ => lt = pressure_levels | OnModelLevels numbers _ => lt = model_levels /\ lv = Numbers numbers end.
Lemma same_data_same_result argsort st lt lv seconds d d' : same_settings st lt lv -> same_data lt d d' -> preprocess_time argsort st seconds d = preprocess_time argsort st seconds d'.
Proof.
  intros Hs (E1 & E2 & E3 & Hc & Ht). unfold preprocess_time. rewrite <- E2, <- E3.
  rewrite (all_cells_ext no_cell _ _ (preprocess_cell argsort st seconds d) (preprocess_cell argsort st seconds d')); [reflexivity|]. intros i j Hi Hj.
  destruct (Hc i j Hi Hj) as (Q1 & Q2 & Q3 & Q4 & Q5 & Q6 & Q7). cbn zeta in Q7.
  assert (Et : match raw_tcw d with Some f => Some (f i j) | None => None end = match raw_tcw d' with Some f => Some (f i j) | None => None end).
  { destruct (raw_tcw d), (raw_tcw d'); try contradiction; [|reflexivity]. now rewrite Ht. }
  unfold preprocess_cell, level_data. cbn zeta. rewrite <- Et, <- E1, <- Q1, <- Q2, <- Q3, <- Q4, <- Q5, <- Q6. destruct st; [|reflexivity].
  cbn in Hs. destruct (Q7 Hs) as (<- & <- & <-). reflexivity.
Qed.
(** Preprocessing the files is preprocessing the data they hold: so C90 (it succeeds, and the runs complete and
    balance), C91 (every place has its own data) and C92 (tracked water is within the column water) are about files. *)
Theorem C105_files_are_their_data argsort st template lt lv fs p (raw : Z -> era5_data) data :
  same_settings st lt lv -> (forall u, In u (input_dates p) -> hold template (pc_cal p) lt lv fs u (raw u)) ->
  preprocesses_files argsort st template lt lv fs p data <-> preprocesses argsort st p raw data.
Proof.
  intros Hs Hh. assert (E : forall u, In u (input_dates p) -> preprocess_files argsort st template lt lv fs p u = preprocess_time argsort st (nseconds p) (raw u)).
  { intros u Hu. destruct (C104_files_are_loaded _ _ _ _ _ _ _ (Hh u Hu)) as (d' & E & S). unfold preprocess_files. rewrite E. cbn [bind]. symmetry. now apply (same_data_same_result _ _ lt lv). }
  split; intros H u Hu; destruct (H u Hu) as (o & Eo & Q); exists o; (split; [|exact Q]); rewrite <- Eo; [symmetry|]; now apply E.
Qed.
Theorem C105_runs_complete_and_balance argsort st template lt lv fs lat lon (raw : Z -> era5_data) p :
  sorts argsort -> aligned p -> prep_dated p -> good_axes lat lon -> same_settings st lt lv ->
  (forall u, In u (input_dates p) -> hold template (pc_cal p) lt lv fs u (raw u) /\ plausible st lat lon (raw u)) ->
  exists data, preprocesses_files argsort st template lt lv fs p data /\
  forall l, schedule (workers p) l -> exists fs', acts data l empty_folder = OK fs' /\
  forall (c : runcfg Rnum) dom d tag prevf prevb,
  covers p c -> (0 < rc_timestep c)%Z -> (rc_start c <= rc_end c)%Z -> rc_restart c = false ->
  domain_positions dom lat (new_lon argsort lon) = OK d -> (2 <= List.length (ds_lat d))%nat -> (2 <= List.length (ds_lon d))%nat ->
  let w := era5_world p fs' d tag in
  let m := List.length (ds_lat d) in let n := List.length (ds_lon d) in
  let area := area (at_idx (ds_lat d)) (at_idx (ds_lon d)) in
  (exists r, completes (fwd_run c w prevf) r /\
     (forall tf f, In (tf, f) (ls_files r) -> fwd_nonneg m n f) /\
     forall t f before, ls_files r = before ++ [(t, f)] ->
       let sum g := lsum (map (fun tf => Total m n area (at_ (g (snd tf)))) (ls_files r)) in
       (sum f_tagged + sum f_gains = sum f_p_upper + sum f_p_lower + sum f_losses + Total m n area (at_ (f_s_upper f)) + Total m n area (at_ (f_s_lower f)))%R) /\
  (exists r, completes (bwd_run c w prevb) r /\
     (forall tf f, In (tf, f) (ls_files r) -> bwd_nonneg m n f) /\
     forall t f before, ls_files r = before ++ [(t, f)] ->
       let sum g := lsum (map (fun tf => Total m n area (at_ (g (snd tf)))) (ls_files r)) in
       (sum b_tagged + sum b_gains = sum b_e_track + sum b_losses + Total m n area (at_ (b_s_upper f)) + Total m n area (at_ (b_s_lower f)))%R).
Proof.
  intros HS A D Ax Hs H.
  assert (Hh : forall u, In u (input_dates p) -> hold template (pc_cal p) lt lv fs u (raw u)) by (intros u Hu; now apply H).
  assert (Pl : forall u, In u (input_dates p) -> plausible st lat lon (raw u)) by (intros u Hu; now apply H).
  destruct (C90_preprocessing_succeeds argsort st lat lon raw p HS A D Ax Pl) as (data & HD & K). exists data.
  split; [now apply (C105_files_are_their_data argsort st template lt lv fs p raw)|]. intros l Sl. destruct (K l Sl) as (fs' & Ha). exists fs'. split; [exact Ha|].
  intros c dom d tag prevf prevb Cv Ht Hse Hr Hd Hm Hn. exact (C90_runs_complete_and_balance argsort st lat lon raw p data l fs' c dom d tag prevf prevb HS A D Ax Pl HD Sl Ha Cv Ht Hse Hr Hd Hm Hn).
Qed.

(** ** Concrete cases *)
(** the data of C90_case in one file per variable, in the spelling of the new Climate Data Store; a level that is not
    wanted, and the levels in another order than in the settings *)
Definition ex_template : string := "data/ERA5{levtype}_{variable}.nc".
Definition ex_surface (x : nat -> nat -> R) : era5_file :=
  mkfile 1 [("valid_time", Times (input_dates ex_prep)); ("latitude", Axis ex_lat); ("longitude", Axis ex_lon); ("number", Aux)]%string
    (map (fun _ i j => [x i j]) (input_dates ex_prep)).
Definition ex_column (x : list R) : era5_file :=
  mkfile 1 [("pressure_level", Levels [300; 500; 850; 1000]%R); ("latitude", Axis ex_lat); ("longitude", Axis ex_lon); ("valid_time", Times (input_dates ex_prep))]%string
    (map (fun _ _ _ => x) (input_dates ex_prep)).
Definition ex_files (tcw : bool) : files := fun name =>
  if String.eqb name "data/ERA5_pl_q.nc" then Some (ex_column [1/1000; 7; 1/100; 2/100]%R)
  else if String.eqb name "data/ERA5_pl_u.nc" then Some (ex_column [20; 7; 5; 1]%R)
  else if String.eqb name "data/ERA5_pl_v.nc" then Some (ex_column [-3; 7; 2; 1]%R)
  else if String.eqb name "data/ERA5_sp.nc" then Some (ex_surface (fun _ _ => 97000 + 1 / 2)%R)
  else if String.eqb name "data/ERA5_d2m.nc" then Some (ex_surface (fun _ _ => 273.15%R))
  else if String.eqb name "data/ERA5_u10.nc" then Some (ex_surface (fun _ _ => 2%R))
  else if String.eqb name "data/ERA5_v10.nc" then Some (ex_surface (fun _ _ => 1%R))
  else if String.eqb name "data/ERA5_tp.nc" then Some (ex_surface (fun i _ => INR i / 1000)%R)
  else if String.eqb name "data/ERA5_e.nc" then Some (ex_surface (fun _ j => - INR j / 1000)%R)
  else if (String.eqb name "data/ERA5_tcw.nc" && tcw)%bool then Some (ex_surface (fun i _ => 30 + INR i)%R)
  else None.
Definition ex_held (tcw : bool) (u : Z) : era5_data := mkera5 [850; 300; 1000]%R ex_lat ex_lon ex_cell (if tcw then Some (fun i _ => 30 + INR i)%R else None).
Lemma ex_times : NoDup (input_dates ex_prep).
Proof. unfold input_dates. vm_compute. repeat constructor; cbn; intuition discriminate. Qed.
Lemma const_data {A} (x : A) (l : list Z) k u : nth_error l k = Some u -> nth_error (map (fun _ => x) l) k = Some x.
Proof. intros H. rewrite nth_error_map, H. reflexivity. Qed.
Lemma ex_surface_ok fs path name u x : In u (input_dates ex_prep) -> path = OK name -> fs name = Some (ex_surface x) -> has_surface fs path u ex_lat ex_lon x.
Proof.
  intros Hu Ep Ef. destruct (In_nth_error _ _ Hu) as [k Hk]. exists name, (ex_surface x), (fun i j => [x i j]). split; [exact Ep|]. split; [exact Ef|]. split; [|split; [|split; [|reflexivity]]].
  - split; [reflexivity|]. split; [repeat constructor; cbn; intuition discriminate|]. exists (input_dates ex_prep), k.
    split; [right; split; [unfold absent; cbn; intuition discriminate|cbn; auto]|]. split; [exact ex_times|]. split; [exact Hk|]. unfold ex_surface. cbn [ef_data]. now apply (const_data _ _ _ u).
  - unfold absent. cbn. intuition discriminate.
  - split; cbn; auto.
Qed.
Lemma ex_column_ok fs path name u x a b c d : In u (input_dates ex_prep) -> path = OK name -> fs name = Some (ex_column [a; b; c; d]) ->
  (forall i j, x i j = [c; a; d]) -> has_levels (Numbers [850; 300; 1000]%Z) fs path u ex_lat ex_lon [850; 300; 1000]%R x.
Proof.
  intros Hu Ep Ef Hx. destruct (In_nth_error _ _ Hu) as [k Hk]. exists name, (ex_column [a; b; c; d]), (fun _ _ => [a; b; c; d]), [300; 500; 850; 1000]%R.
  split; [exact Ep|]. split; [exact Ef|]. split; [|split; [|split; [|split]]].
  - split; [reflexivity|]. split; [repeat constructor; cbn; intuition discriminate|]. exists (input_dates ex_prep), k.
    split; [right; split; [unfold absent; cbn; intuition discriminate|cbn; auto]|]. split; [exact ex_times|]. split; [exact Hk|]. unfold ex_column. cbn [ef_data]. now apply (const_data _ _ _ u).
  - exists "pressure_level"%string. split; [cbn; auto|]. split; [cbn; auto|]. intros n Hn N. unfold absent. cbn in Hn |- *. intuition (subst; discriminate || congruence).
  - repeat constructor; cbn; intuition lra.
  - split; cbn; auto.
  - split; [reflexivity|]. split; [intros z Hz; cbn in *; intuition (subst; auto)|]. intros i j _ _. rewrite Hx. split; [reflexivity|]. intros m k' z Hm Hk'.
    destruct m as [|[|[|m]]]; cbn in Hm; try (destruct m; discriminate); injection Hm as <-;
    destruct k' as [|[|[|[|k']]]]; cbn in Hk'; try (destruct k'; discriminate); first [reflexivity | exfalso; assert (Q : forall x y : R, Some x = Some y -> x = y) by congruence; apply Q in Hk'; lra].
Qed.
Lemma ex_path u levtype v : In u (input_dates ex_prep) -> format_template ex_template (pc_cal ex_prep) u levtype v = OK ("data/ERA5" ++ levtype ++ "_" ++ v ++ ".nc")%string.
Proof.
  intros Hu. destruct (ex_prep_dated u) as (y & m & d & E & _); [exact Hu|]. unfold format_template, ex_template. cbn [parse_template bind split_colon String.append Ascii.eqb Bool.eqb]. cbn [format_pieces]. unfold format_field. rewrite E. cbn [String.eqb Ascii.eqb Bool.eqb bind]. reflexivity.
Qed.
Lemma ex_hold tcw u : In u (input_dates ex_prep) -> hold ex_template (pc_cal ex_prep) pressure_levels (Numbers [850; 300; 1000]%Z) (ex_files tcw) u (ex_held tcw u).
Proof.
  intros Hu. unfold hold. cbn zeta. cbn [ex_held raw_lat raw_lon raw_level raw_at raw_tcw ex_cell raw_q raw_u raw_v raw_sp raw_e raw_tp raw_d2m raw_u10 raw_v10].
  split; [eapply ex_column_ok; [exact Hu|now apply ex_path|reflexivity|reflexivity]|].
  split; [eapply ex_column_ok; [exact Hu|now apply ex_path|reflexivity|reflexivity]|].
  split; [eapply ex_column_ok; [exact Hu|now apply ex_path|reflexivity|reflexivity]|].
  split; [eapply ex_surface_ok; [exact Hu|now apply ex_path|reflexivity]|].
  split; [eapply ex_surface_ok; [exact Hu|now apply ex_path|reflexivity]|].
  split; [eapply ex_surface_ok; [exact Hu|now apply ex_path|reflexivity]|].
  split; [intros _; split; [eapply ex_surface_ok; [exact Hu|now apply ex_path|reflexivity]|split; (eapply ex_surface_ok; [exact Hu|now apply ex_path|reflexivity])]|].
  destruct tcw; [eapply ex_surface_ok; [exact Hu|now apply ex_path|reflexivity]|]. eexists. split; [now apply ex_path|reflexivity].
Qed.
Example C105_case : forall tcw, same_settings (OnPressureLevels Integer ex_factor ex_offset) pressure_levels (Numbers [850; 300; 1000]%Z) /\
  sorts argsort0 /\ aligned ex_prep /\ prep_dated ex_prep /\ good_axes ex_lat ex_lon /\
  forall u, In u (input_dates ex_prep) -> hold ex_template (pc_cal ex_prep) pressure_levels (Numbers [850; 300; 1000]%Z) (ex_files tcw) u (ex_held tcw u) /\
    plausible (OnPressureLevels Integer ex_factor ex_offset) ex_lat ex_lon (ex_held tcw u).
Proof.
  intros tcw. split; [reflexivity|]. split; [exact argsort0_sorts|]. split; [split; [reflexivity|split; [exists (6 * 60)%Z|exists 0%Z]; reflexivity]|]. split; [exact ex_prep_dated|]. split; [exact ex_axes|].
  intros u Hu. split; [now apply ex_hold|]. destruct C101_case as (_ & _ & P). specialize (P u). destruct P as (P1 & P2 & P3 & P4).
  split; [reflexivity|]. split; [reflexivity|]. split; [exact P3|]. intros i j Hi Hj. destruct (P4 i j Hi Hj) as [Q1 Q2]. split; [exact Q1|]. destruct tcw; [exact Q2|exact I].
Qed.
Lemma june_2021 : date_of ProlepticGregorian (1624197600 * usec) = Some (2021, 6, 20)%Z.
Proof. unfold date_of, day_of. rewrite civil_eq, epoch_eq. vm_compute. reflexivity. Qed.
Example C104_names_case : four_digit_year ProlepticGregorian (1624197600 * usec) /\
  format_template ("./" ++ per_day) ProlepticGregorian (1624197600 * usec) "_pl" "q" = OK "./ERA5_2021-06-20_pl_q.nc"%string /\
  format_template ("/ERA5data" ++ per_month ++ per_day) ProlepticGregorian (1624197600 * usec) "" "tcw" = OK "/ERA5data/2021/06/ERA5_2021-06-20_tcw.nc"%string.
Proof.
  assert (Y : four_digit_year ProlepticGregorian (1624197600 * usec)) by (exists 2021%Z, 6%Z, 20%Z; split; [exact june_2021|lia]).
  split; [exact Y|]. split.
  - destruct (C104_file_names "./" ProlepticGregorian (1624197600 * usec) "_pl" "q" ltac:(cbn; intuition discriminate) Y) as [-> _]. unfold strf_day. rewrite june_2021. reflexivity.
  - destruct (C104_file_names "/ERA5data" ProlepticGregorian (1624197600 * usec) "" "tcw" ltac:(cbn; intuition discriminate) Y) as [_ (y & m & d & E & ->)].
    rewrite june_2021 in E. injection E as <- <- <-. unfold strf_day. rewrite june_2021. reflexivity.
Qed.
