(** * C110: ERA5 variables on different grids
    preprocessing/era5.py l.37-65 (get_input_data: how the variables are put together) and
    preprocessing/input_validation.py l.68-73 (check_nans). *)
From Coq Require Import Reals Lra Lia Arith ZArith List Bool String Ascii.
From Verif Require Import Num Arr Core Track Calendar Load Prep PrepTrack Sphere Region Surface Humidity ModelLevels Interp Levels Lon EraPrep EraTrack Validate ExampleRun Sources EraFiles.
Import ListNotations.
Local Open Scope list_scope.

(** ** Model *)
Definition same_labels (l l' : list R) : bool := if list_eq_dec Req_EM_T l l' then true else false.
Fixpoint distinct (l : list R) : bool := match l with [] => true | x :: l => if in_dec Req_EM_T x l then false else distinct l end.
Definition find (x : R) (l : list R) : option nat := match position x l with OK k => Some k | Err _ => None end.
(** "data[name] = variable" for a data set with coordinates (era5.py l.40-53: Dataset.__setitem__ aligns the variable with
    the coordinates that the data set has, "reindex"): nothing happens to equal coordinates, other ones are looked up label
    by label, and the values of labels that are not found are missing (NaN).  Repeated labels cannot be looked up
    (ValueError).  (Where only the labels of the data set are repeated, xarray looks up in some cases: an error here.) *)
Definition indexer (new old : list R) : res (list (option nat)) :=
  if same_labels new old then OK (map Some (seq 0 (List.length old)))
  else if (distinct old && distinct new)%bool then OK (map (fun x => find x old) new) else Err ValueError.
Fixpoint all_some {A} (l : list (option A)) : option (list A) :=
  match l with [] => Some [] | None :: _ => None | Some x :: l => match all_some l with Some r => Some (x :: r) | None => None end end.
(** a variable on the grid of the data set; None: a missing value (in a column: at some level).  A variable without
    latitude or longitude is rejected by validate_vars (input_validation.py l.48-65; an error at once here).  The inner
    joins of tp with e (era5.py l.133) and of d2m with sp (l.46) come before: what they drop is missing afterwards. *)
Definition surface_on (lat lon : list R) (x : da) : res (nat -> nat -> option R) :=
  do la <- axis "latitude" x; do lo <- axis "longitude" x; do Ix <- indexer lat la; do Jx <- indexer lon lo;
  OK (fun i j => match nth i Ix None, nth j Jx None with Some i', Some j' => Some (value x i' j') | _, _ => None end).
Definition column_on (level lat lon : list R) (x : da) : res (nat -> nat -> option (list R)) :=
  do ls <- axis "level" x; do la <- axis "latitude" x; do lo <- axis "longitude" x;
  do K <- indexer level ls; do Ix <- indexer lat la; do Jx <- indexer lon lo;
  OK (fun i j => match nth i Ix None, nth j Jx None with
      | Some i', Some j' => all_some (map (option_map (fun k => nth k (da_at x i' j') 0%R)) K)
      | _, _ => None
      end).
(** input_validation.py l.68-73: check_nans, for one variable (ValidationError: OtherError) *)
Definition check_nans {A} (default : A) (lat lon : list R) (f : nat -> nat -> option A) : res (nat -> nat -> A) :=
  if forallb (fun i => forallb (fun j => match f i j with Some _ => true | None => false end) (seq 0 (List.length lon))) (seq 0 (List.length lat))
  then OK (fun i j => match f i j with Some x => x | None => default end) else Err OtherError.
(** era5.py l.37-65 with input_validation.py l.12-17, up to the conversions that EraPrep.v models: the coordinates are those
    of q, the first variable *)
Definition load_aligned (template : string) (cal : calendar) (lt : level_type) (lv : levels) (fs : files) (u : Z) : res era5_data :=
  let load v := load_data template cal lt lv fs v u in
  do q <- load "q"%string; do level <- axis "level" q; do lat <- axis "latitude" q; do lon <- axis "longitude" q;   (* l.40 *)
  do q <- column_on level lat lon q;
  do uu <- load "u"%string; do uu <- column_on level lat lon uu;                                                    (* l.41 *)
  do v <- load "v"%string; do v <- column_on level lat lon v;                                                       (* l.42 *)
  do sp <- load "sp"%string; do sp <- surface_on lat lon sp;                                                        (* l.43 *)
  do (d2m, (u10, v10)) <- match lt with                                                                             (* l.44-48 *)
    | pressure_levels => do d <- load "d2m"%string; do d <- surface_on lat lon d; do a <- load "u10"%string; do a <- surface_on lat lon a;
                         do b <- load "v10"%string; do b <- surface_on lat lon b; OK (d, (a, b))
    | model_levels => let none := fun _ _ => Some 0%R in OK (none, (none, none))
    end;
  do e <- load "e"%string; do e <- surface_on lat lon e; do tp <- load "tp"%string; do tp <- surface_on lat lon tp;   (* l.52 *)
  do tcw <- match load "tcw"%string with OK x => do y <- surface_on lat lon x; OK (Some y) | Err FileNotFoundError => OK None | Err e => Err e end;  (* l.53-59 *)
  do q <- check_nans [] lat lon q; do uu <- check_nans [] lat lon uu; do v <- check_nans [] lat lon v;              (* check_nans *)
  do sp <- check_nans 0%R lat lon sp; do d2m <- check_nans 0%R lat lon d2m; do u10 <- check_nans 0%R lat lon u10; do v10 <- check_nans 0%R lat lon v10;
  do e <- check_nans 0%R lat lon e; do tp <- check_nans 0%R lat lon tp;
  do tcw <- match tcw with Some w => do w <- check_nans 0%R lat lon w; OK (Some w) | None => OK None end;
  OK (mkera5 level lat lon (fun i j => mkcell (q i j) (uu i j) (v i j) (sp i j) (d2m i j) (u10 i j) (v10 i j) (tp i j) (e i j)) tcw).

(** ** Specification *)
(** the values [g] of a file at time [u], and the labels of its coordinates *)
Definition at_time (fs : files) (path : res string) (u : Z) (f : era5_file) (g : nat -> nat -> list R) : Prop :=
  exists name ts k, path = OK name /\ fs name = Some f /\
    (In ("time"%string, Times ts) (ef_coords f) \/ absent "time" (ef_coords f) /\ In ("valid_time"%string, Times ts) (ef_coords f)) /\
    nth_error ts k = Some u /\ g = nth k (ef_data f) (fun _ _ => []).
Definition labels (f : era5_file) (name : string) (l : list R) : Prop := In (name, Axis l) (ef_coords f) \/ In (name, Levels l) (ef_coords f).
(** every value comes from the place (and level) with the same labels in the file of the variable *)
Definition surface_from (fs : files) (path : res string) (u : Z) (lat lon : list R) (x : nat -> nat -> R) : Prop :=
  exists f g la lo, at_time fs path u f g /\ labels f "latitude" la /\ labels f "longitude" lo /\
  forall i j, (i < List.length lat)%nat -> (j < List.length lon)%nat -> exists i' j',
    nth_error la i' = nth_error lat i /\ nth_error lo j' = nth_error lon j /\ x i j = hd 0%R (g i' j').
Definition columns_from (fs : files) (path : res string) (u : Z) (level lat lon : list R) (x : nat -> nat -> list R) : Prop :=
  exists f g n ls la lo, at_time fs path u f g /\ In n level_names /\ labels f n ls /\ labels f "latitude" la /\ labels f "longitude" lo /\
  forall i j, (i < List.length lat)%nat -> (j < List.length lon)%nat -> exists i' j',
    nth_error la i' = nth_error lat i /\ nth_error lo j' = nth_error lon j /\ List.length (x i j) = List.length level /\
    forall k, (k < List.length level)%nat -> exists k', nth_error ls k' = nth_error level k /\ nth k (x i j) 0%R = nth k' (g i' j') 0%R.

(** ** Lookups *)
Lemma position_in x l k : position x l = OK k -> nth_error l k = Some x.
Proof.
  revert k. induction l as [|y l IH]; intros k; cbn [position]; [discriminate|]. destruct (Req_EM_T y x) as [->|N].
  - intros [= <-]. reflexivity.
  - destruct (position x l) as [k'|]; [|discriminate]. intros [= <-]. now apply IH.
Qed.
Lemma find_in x l k : find x l = Some k -> nth_error l k = Some x.
Proof. unfold find. destruct (position x l) eqn:E; [|discriminate]. intros [= ->]. now apply position_in. Qed.
Lemma find_ok x l : In x l -> exists k, find x l = Some k /\ nth_error l k = Some x.
Proof. intros H. destruct (position_ok x l H) as (k & E & N). exists k. unfold find. now rewrite E. Qed.
Lemma indexer_ok new old Ix : indexer new old = OK Ix -> List.length Ix = List.length new /\ forall i i', nth i Ix None = Some i' -> nth_error old i' = nth_error new i /\ (i < List.length new)%nat.
Proof.
  unfold indexer, same_labels. destruct (list_eq_dec _ _ _) as [->|N].
  - intros [= <-]. rewrite map_length, seq_length. split; [reflexivity|]. intros i i' H.
    assert (Hi : (i < List.length old)%nat).
    { destruct (Nat.lt_ge_cases i (List.length old)) as [|G]; [assumption|]. rewrite nth_overflow in H by (rewrite map_length, seq_length; lia). discriminate. }
    rewrite (nth_indep _ None (Some 0%nat)) in H by (rewrite map_length, seq_length; lia). rewrite map_nth, seq_nth in H by lia. injection H as <-. auto.
  - destruct (_ && _)%bool; [|discriminate]. intros [= <-]. rewrite map_length. split; [reflexivity|]. intros i i' H.
    assert (Hi : (i < List.length new)%nat).
    { destruct (Nat.lt_ge_cases i (List.length new)) as [|G]; [assumption|]. rewrite nth_overflow in H by (rewrite map_length; lia). discriminate. }
    rewrite (nth_indep _ None (find 0%R old)) in H by (rewrite map_length; lia). rewrite (map_nth (fun x => find x old)) in H. apply find_in in H. split; [|exact Hi].
    rewrite H. symmetry. now apply nth_error_nth'.
Qed.
Lemma distinct_ok l : NoDup l -> distinct l = true.
Proof. induction l as [|x l IH]; intros N; [reflexivity|]. inversion_clear N as [|? ? N1 N2]. cbn [distinct]. destruct (in_dec _ x l); [contradiction|now apply IH]. Qed.
Lemma indexer_total new old : NoDup old -> NoDup new -> (forall x, In x new -> In x old) -> exists Ix, indexer new old = OK Ix /\
  forall i, (i < List.length new)%nat -> exists i', nth i Ix None = Some i'.
Proof.
  intros N1 N2 H. unfold indexer. destruct (same_labels new old) eqn:E.
  - unfold same_labels in E. destruct (list_eq_dec _ _ _) as [->|]; [|discriminate]. eexists. split; [reflexivity|]. intros i Hi. exists i.
    rewrite (nth_indep _ None (Some 0%nat)) by (rewrite map_length, seq_length; lia). rewrite map_nth, seq_nth by lia. reflexivity.
  - rewrite !distinct_ok by assumption. eexists. split; [reflexivity|]. intros i Hi. rewrite (nth_indep _ None (find 0%R old)) by (rewrite map_length; lia).
    rewrite (map_nth (fun x => find x old)). destruct (find_ok (nth i new 0%R) old) as (k & E' & _); [apply H, nth_In, Hi|]. eauto.
Qed.
Lemma indexer_same l : indexer l l = OK (map Some (seq 0 (List.length l))).
Proof. unfold indexer, same_labels. destruct (list_eq_dec _ _ _); [reflexivity|contradiction]. Qed.
Lemma identity_at n i : (i < n)%nat -> nth i (map Some (seq 0 n)) None = Some i.
Proof. intros H. rewrite (nth_indep _ None (Some 0%nat)) by (rewrite map_length, seq_length; lia). rewrite map_nth, seq_nth by lia. reflexivity. Qed.
Lemma all_some_ok {A} (l : list (option A)) r : all_some l = Some r -> l = map Some r.
Proof.
  revert r. induction l as [|[x|] l IH]; intros r; cbn [all_some]; [intros [= <-]; reflexivity| |discriminate]. destruct (all_some l) as [r'|]; [|discriminate].
  intros [= <-]. cbn. now rewrite <- IH.
Qed.
Lemma all_some_map {A} (r : list A) : all_some (map Some r) = Some r.
Proof. induction r as [|x r IH]; [reflexivity|]. cbn [map all_some]. now rewrite IH. Qed.
Lemma check_ok {A} (d : A) lat lon f g : check_nans d lat lon f = OK g -> forall i j, (i < List.length lat)%nat -> (j < List.length lon)%nat -> f i j = Some (g i j).
Proof.
  unfold check_nans. destruct (forallb _ _) eqn:E; [|discriminate]. intros [= <-] i j Hi Hj. rewrite forallb_forall in E. specialize (E i ltac:(apply in_seq; lia)).
  rewrite forallb_forall in E. specialize (E j ltac:(apply in_seq; lia)). cbv beta in *. destruct (f i j); [reflexivity|discriminate].
Qed.
Lemma check_total {A} (d : A) lat lon f g : (forall i j, (i < List.length lat)%nat -> (j < List.length lon)%nat -> f i j = Some (g i j)) ->
  exists h, check_nans d lat lon f = OK h /\ forall i j, (i < List.length lat)%nat -> (j < List.length lon)%nat -> h i j = g i j.
Proof.
  intros H. unfold check_nans. replace (forallb _ _) with true.
  - eexists. split; [reflexivity|]. intros i j Hi Hj. cbv beta. now rewrite H.
  - symmetry. apply forallb_forall. intros i Hi. apply forallb_forall. intros j Hj. apply in_seq in Hi, Hj. rewrite H by lia. reflexivity.
Qed.
(** ** One variable *)
Lemma bind_inv {A B} (x : res A) (k : A -> res B) b : bind x k = OK b -> exists a, x = OK a /\ k a = OK b.
Proof. destruct x as [a|]; [|discriminate]. intros H. exists a. auto. Qed.
Lemma surface_inv lat lon x f g : surface_on lat lon x = OK f -> check_nans 0%R lat lon f = OK g ->
  exists la lo, axis "latitude" x = OK la /\ axis "longitude" x = OK lo /\ forall i j, (i < List.length lat)%nat -> (j < List.length lon)%nat -> exists i' j',
    nth_error la i' = nth_error lat i /\ nth_error lo j' = nth_error lon j /\ g i j = value x i' j'.
Proof.
  intros H C. unfold surface_on in H. apply bind_inv in H as (la & Ela & H). apply bind_inv in H as (lo & Elo & H). apply bind_inv in H as (Ix & EI & H). apply bind_inv in H as (Jx & EJ & H).
  injection H as <-. exists la, lo. split; [exact Ela|]. split; [exact Elo|]. intros i j Hi Hj. pose proof (check_ok _ _ _ _ _ C i j Hi Hj) as Q. cbv beta in Q.
  destruct (nth i Ix None) as [i'|] eqn:E1; [|discriminate]. destruct (nth j Jx None) as [j'|] eqn:E2; [|discriminate]. injection Q as Q. exists i', j'.
  apply indexer_ok in EI as [_ EI]. apply indexer_ok in EJ as [_ EJ]. split; [now apply EI|]. split; [now apply EJ|]. now symmetry.
Qed.
Lemma column_inv level lat lon x f g : column_on level lat lon x = OK f -> check_nans [] lat lon f = OK g ->
  exists ls la lo, axis "level" x = OK ls /\ axis "latitude" x = OK la /\ axis "longitude" x = OK lo /\ forall i j, (i < List.length lat)%nat -> (j < List.length lon)%nat -> exists i' j',
    nth_error la i' = nth_error lat i /\ nth_error lo j' = nth_error lon j /\ List.length (g i j) = List.length level /\
    forall k, (k < List.length level)%nat -> exists k', nth_error ls k' = nth_error level k /\ nth k (g i j) 0%R = nth k' (da_at x i' j') 0%R.
Proof.
  intros H C. unfold column_on in H. apply bind_inv in H as (ls & Els & H). apply bind_inv in H as (la & Ela & H). apply bind_inv in H as (lo & Elo & H).
  apply bind_inv in H as (K & EK & H). apply bind_inv in H as (Ix & EI & H). apply bind_inv in H as (Jx & EJ & H).
  injection H as <-. exists ls, la, lo. split; [exact Els|]. split; [exact Ela|]. split; [exact Elo|]. intros i j Hi Hj. pose proof (check_ok _ _ _ _ _ C i j Hi Hj) as Q. cbv beta in Q.
  destruct (nth i Ix None) as [i'|] eqn:E1; [|discriminate]. destruct (nth j Jx None) as [j'|] eqn:E2; [|discriminate]. exists i', j'.
  apply indexer_ok in EI as [_ EI]. apply indexer_ok in EJ as [_ EJ]. apply indexer_ok in EK as [LK EK]. split; [now apply EI|]. split; [now apply EJ|].
  apply all_some_ok in Q. pose proof (f_equal (@List.length _) Q) as L. rewrite !map_length in L. split; [congruence|]. intros k Hk.
  pose proof (f_equal (fun l => nth k l None) Q) as E. cbv beta in E.
  rewrite (nth_indep (map Some _) None (Some 0%R)) in E by (rewrite map_length; lia). rewrite map_nth in E.
  rewrite (nth_indep (map (option_map _) _) None (option_map (fun k => nth k (da_at x i' j') 0%R) None)) in E by (rewrite map_length; lia). rewrite map_nth in E.
  destruct (nth k K None) as [k'|] eqn:Ek; [|discriminate]. injection E as E. exists k'. split; [now apply EK|now symmetry].
Qed.
Lemma axis_in f n y : ~ In n ["time"; "valid_time"; "level"; "model_level"; "pressure_level"; "lev"]%string -> (forall m, m <> "level"%string -> get m (da_coords y) = get m (final f)) ->
  forall l, axis n y = OK l -> labels f n l.
Proof.
  intros Hn H l. unfold axis, labels. rewrite H by (intros ->; apply Hn; cbn; auto 10). rewrite final_axis by exact Hn. destruct (get n (ef_coords f)) as [c|] eqn:E; [|discriminate].
  apply get_some in E. destruct c; try discriminate; intros [= ->]; auto.
Qed.
Lemma final_level_name f c : (has "lev" (opened f) && has "level" (opened f))%bool = false -> get "level" (final f) = Some c -> exists n, In n level_names /\ In (n, c) (ef_coords f).
Proof.
  intros Hh. unfold final. destruct (has "lev" (opened f)) eqn:Hl.
  - cbn [andb] in Hh. unfold has in Hh. destruct (get "level" (opened f)) eqn:G; [discriminate|]. rewrite get_renamed_new by exact G. rewrite opened_other by (cbn; intuition discriminate).
    intros E. apply get_some in E. exists "lev"%string. cbn. auto 12.
  - rewrite opened_level. destruct (get "level" (ef_coords f)) eqn:E1; [intros [= ->]; apply get_some in E1; exists "level"%string; cbn; auto 12|].
    destruct (get "model_level" (ef_coords f)) eqn:E2; [intros [= ->]; apply get_some in E2; exists "model_level"%string; cbn; auto 12|].
    intros E3. apply get_some in E3. exists "pressure_level"%string. cbn. auto 12.
Qed.
Lemma positions_in w l pos : positions w l = OK pos -> List.length pos = List.length w /\ forall k, (k < List.length w)%nat -> nth_error l (nth k pos 0%nat) = nth_error w k.
Proof.
  revert pos. induction w as [|x w IH]; intros pos; cbn [positions]; [intros [= <-]; split; [reflexivity|cbn; lia]|].
  destruct (position x l) as [k|] eqn:E; [|discriminate]. cbn [bind]. destruct (positions w l) as [r|]; [|discriminate]. intros [= <-]. destruct (IH r eq_refl) as [L Q].
  split; [cbn; lia|]. intros [|i] Hi; cbn in *; [now apply position_in|apply Q; lia].
Qed.
Lemma load_inv template cal lt lv fs v u y : load_data template cal lt lv fs v u = OK y -> exists f g, at_time fs (format_template template cal u (levtype_of lt v) v) u f g /\
  (forall l, axis "latitude" y = OK l -> labels f "latitude" l) /\ (forall l, axis "longitude" y = OK l -> labels f "longitude" l) /\
  (three_dim v = false -> da_at y = g) /\
  (three_dim v = true -> forall lev, axis "level" y = OK lev -> exists n ls, In n level_names /\ labels f n ls /\
     forall k, (k < List.length lev)%nat -> exists k', nth_error ls k' = nth_error lev k /\ forall i j, nth k (da_at y i j) 0%R = nth k' (g i j) 0%R).
Proof.
  intros H. pose proof (load_found _ _ _ _ _ _ _ _ H) as F. unfold load_data in H. apply bind_inv in H as (name & En & H). unfold open_da in H. destruct (fs name) as [f|] eqn:Ef; [|discriminate].
  destruct (Nat.eqb_spec (ef_variables f) 1) as [V|]; [|discriminate]. cbn [bind ef_coords ef_data] in H. fold (opened f) in H.
  destruct (get "time" (opened f)) as [[ts|ls|ls|]|] eqn:Et; try discriminate. apply bind_inv in H as (k & Ek & H). cbn zeta in H. apply bind_inv in H as (cs & Ecs & H).
  assert (Hc : cs = final f /\ (has "lev" (opened f) && has "level" (opened f))%bool = false).
  { unfold final. destruct (has "lev" (opened f)); cbn [andb]; [|injection Ecs as <-; auto]. destruct (has "level" (opened f)); [discriminate|]. injection Ecs as <-. auto. }
  destruct Hc as [-> Hh]. clear Ecs. exists f, (nth k (ef_data f) (fun _ _ => [])). split.
  { exists name, ts, k. split; [exact En|]. split; [exact Ef|]. split; [|split; [now apply index_of_in|reflexivity]].
    unfold opened in Et. rewrite !(get_rename_if_other "time") in Et by discriminate. rewrite get_rename_if_new in Et.
    destruct (get "time" (ef_coords f)) eqn:E; [left; injection Et as ->; now apply get_some|right; split; [now apply get_none|now apply get_some]]. }
  assert (A : (forall m, m <> "level"%string -> get m (da_coords y) = get m (final f)) /\ (three_dim v = false -> da_at y = nth k (ef_data f) (fun _ _ => [])) /\
    (three_dim v = true -> forall lev, axis "level" y = OK lev -> exists n ls, In n level_names /\ labels f n ls /\
     forall k0, (k0 < List.length lev)%nat -> exists k', nth_error ls k' = nth_error lev k0 /\ forall i j, nth k0 (da_at y i j) 0%R = nth k' (nth k (ef_data f) (fun _ _ => []) i j) 0%R)).
  { destruct (three_dim v), lv as [l|s].
    - destruct (get "level" (final f)) as [[|ls| |]|] eqn:El; try discriminate. apply bind_inv in H as (pos & Ep & H). injection H as <-. cbn [da_coords da_at].
      destruct (positions_in _ _ _ Ep) as [Lp P]. destruct (final_level_name f _ Hh El) as (n & Hn & Hin).
      split; [intros m Hm; now apply get_map_other|]. split; [discriminate|]. intros _ lev. unfold axis. cbn [da_coords]. rewrite get_map_level by congruence. intros [= <-].
      exists n, ls. split; [exact Hn|]. split; [now right|]. rewrite map_length. intros k0 Hk. exists (nth k0 pos 0%nat). split.
      + rewrite nth_error_map, (nth_error_nth' pos 0%nat) by exact Hk. cbn [option_map]. rewrite Lp in Hk. rewrite P by exact Hk.
        destruct (nth_error (map IZR l) k0) as [z|] eqn:Ez; [|apply nth_error_None in Ez; lia]. f_equal. symmetry. apply nth_error_nth. rewrite P by exact Hk. exact Ez.
      + intros i j. unfold select. rewrite (nth_indep _ 0%R ((fun k1 => nth k1 (nth k (ef_data f) (fun _ _ => []) i j) 0%R) 0%nat)) by (rewrite map_length; exact Hk).
        rewrite (map_nth (fun k1 => nth k1 (nth k (ef_data f) (fun _ _ => []) i j) 0%R)). reflexivity.
    - injection H as <-. cbn [da_coords da_at]. split; [reflexivity|]. split; [discriminate|]. intros _ lev. unfold axis. cbn [da_coords].
      destruct (get "level" (final f)) as [c|] eqn:El; [|discriminate]. destruct (final_level_name f c Hh El) as (n & Hn & Hin). intros E. exists n, lev. split; [exact Hn|].
      split; [destruct c; try discriminate; injection E as ->; [right|left]; exact Hin|]. intros k0 Hk. exists k0. auto.
    - injection H as <-. cbn [da_coords da_at]. repeat split; discriminate.
    - injection H as <-. cbn [da_coords da_at]. repeat split; discriminate. }
  destruct A as (A1 & A2 & A3). split; [|split; [|split; [exact A2|exact A3]]]; apply axis_in; try exact A1; cbn; intuition discriminate.
Qed.
Lemma surface_loaded template cal lt lv fs v u y lat lon f g : three_dim v = false -> load_data template cal lt lv fs v u = OK y -> surface_on lat lon y = OK f -> check_nans 0%R lat lon f = OK g ->
  surface_from fs (format_template template cal u "" v) u lat lon g.
Proof.
  intros H3 E S C. destruct (surface_inv _ _ _ _ _ S C) as (la & lo & Ela & Elo & Q). destruct (load_inv _ _ _ _ _ _ _ _ E) as (ff & gg & At & L1 & L2 & Ed & _). specialize (Ed H3).
  unfold levtype_of in At. rewrite H3 in At. exists ff, gg, la, lo. split; [exact At|]. split; [now apply L1|]. split; [now apply L2|]. intros i j Hi Hj.
  destruct (Q i j Hi Hj) as (i' & j' & Q1 & Q2 & Q3). exists i', j'. split; [exact Q1|]. split; [exact Q2|]. rewrite Q3. unfold value. now rewrite Ed.
Qed.
Lemma column_loaded template cal lt lv fs v u y level lat lon f g : three_dim v = true -> load_data template cal lt lv fs v u = OK y -> column_on level lat lon y = OK f -> check_nans [] lat lon f = OK g ->
  columns_from fs (format_template template cal u (match lt with model_levels => "_ml" | pressure_levels => "_pl" end) v) u level lat lon g.
Proof.
  intros H3 E S C. destruct (column_inv _ _ _ _ _ _ S C) as (ls & la & lo & Els & Ela & Elo & Q). destruct (load_inv _ _ _ _ _ _ _ _ E) as (ff & gg & At & L1 & L2 & _ & Ed).
  destruct (Ed H3 ls Els) as (n & ls' & Hn & Hl & P). unfold levtype_of in At. rewrite H3 in At. exists ff, gg, n, ls', la, lo. split; [exact At|]. split; [exact Hn|]. split; [exact Hl|].
  split; [now apply L1|]. split; [now apply L2|]. intros i j Hi Hj. destruct (Q i j Hi Hj) as (i' & j' & Q1 & Q2 & Q3 & Q4). exists i', j'. split; [exact Q1|]. split; [exact Q2|]. split; [exact Q3|].
  intros k Hk. destruct (Q4 k Hk) as (k1 & P1 & P2).
  assert (Hk1 : (k1 < List.length ls)%nat) by (apply nth_error_Some; rewrite P1; now apply nth_error_Some). destruct (P k1 Hk1) as (k' & R1 & R2). exists k'. split; [congruence|]. rewrite P2. apply R2.
Qed.

(** ** C110 *)
(** Whatever the grids of the files: in data that are accepted, every value of every variable comes from the file of that
    variable and from the same time, latitude, longitude and level; the grid is that of the file of q. *)
Theorem C110_own_places template cal lt lv fs u d : load_aligned template cal lt lv fs u = OK d ->
  let lat := raw_lat d in let lon := raw_lon d in let level := raw_level d in
  let path levtype v := format_template template cal u levtype v in
  let suffix := (match lt with model_levels => "_ml" | pressure_levels => "_pl" end)%string in
  (exists f g, at_time fs (path suffix "q")%string u f g /\ labels f "latitude" lat /\ labels f "longitude" lon) /\
  columns_from fs (path suffix "q")%string u level lat lon (fun i j => raw_q (raw_at d i j)) /\
  columns_from fs (path suffix "u")%string u level lat lon (fun i j => raw_u (raw_at d i j)) /\
  columns_from fs (path suffix "v")%string u level lat lon (fun i j => raw_v (raw_at d i j)) /\
  surface_from fs (path "" "sp")%string u lat lon (fun i j => raw_sp (raw_at d i j)) /\
  surface_from fs (path "" "e")%string u lat lon (fun i j => raw_e (raw_at d i j)) /\
  surface_from fs (path "" "tp")%string u lat lon (fun i j => raw_tp (raw_at d i j)) /\
  (lt = pressure_levels ->
    surface_from fs (path "" "d2m")%string u lat lon (fun i j => raw_d2m (raw_at d i j)) /\
    surface_from fs (path "" "u10")%string u lat lon (fun i j => raw_u10 (raw_at d i j)) /\
    surface_from fs (path "" "v10")%string u lat lon (fun i j => raw_v10 (raw_at d i j))) /\
  forall w, raw_tcw d = Some w -> surface_from fs (path "" "tcw")%string u lat lon w.
Proof.
  intros H. unfold load_aligned in H. cbn zeta in H.
  apply bind_inv in H as (q & Eq & H). apply bind_inv in H as (level & Elev & H). apply bind_inv in H as (lat & Elat & H). apply bind_inv in H as (lon & Elon & H).
  apply bind_inv in H as (q' & Eq' & H). apply bind_inv in H as (uu & Eu & H). apply bind_inv in H as (u' & Eu' & H). apply bind_inv in H as (v & Ev & H). apply bind_inv in H as (v' & Ev' & H).
  apply bind_inv in H as (sp & Esp & H). apply bind_inv in H as (sp' & Esp' & H). apply bind_inv in H as ([d2m [u10 v10]] & Epl & H).
  apply bind_inv in H as (e & Ee & H). apply bind_inv in H as (e' & Ee' & H). apply bind_inv in H as (tp & Etp & H). apply bind_inv in H as (tp' & Etp' & H). apply bind_inv in H as (tcw & Etcw & H).
  apply bind_inv in H as (q2 & Cq & H). apply bind_inv in H as (u2 & Cu & H). apply bind_inv in H as (v2 & Cv & H). apply bind_inv in H as (sp2 & Csp & H). apply bind_inv in H as (d2 & Cd & H).
  apply bind_inv in H as (a2 & Ca & H). apply bind_inv in H as (b2 & Cb & H). apply bind_inv in H as (e2 & Ce & H). apply bind_inv in H as (tp2 & Ctp & H). apply bind_inv in H as (w2 & Cw & H).
  injection H as <-. cbn [raw_lat raw_lon raw_level raw_at raw_tcw raw_q raw_u raw_v raw_sp raw_e raw_tp raw_d2m raw_u10 raw_v10]. cbn zeta.
  split. { destruct (load_inv _ _ _ _ _ _ _ _ Eq) as (f & g & At & L1 & L2 & _). exists f, g. split; [exact At|]. auto. }
  split; [exact (column_loaded _ _ _ _ _ "q" _ _ _ _ _ _ _ eq_refl Eq Eq' Cq)|]. split; [exact (column_loaded _ _ _ _ _ "u" _ _ _ _ _ _ _ eq_refl Eu Eu' Cu)|].
  split; [exact (column_loaded _ _ _ _ _ "v" _ _ _ _ _ _ _ eq_refl Ev Ev' Cv)|]. split; [exact (surface_loaded _ _ _ _ _ "sp" _ _ _ _ _ _ eq_refl Esp Esp' Csp)|].
  split; [exact (surface_loaded _ _ _ _ _ "e" _ _ _ _ _ _ eq_refl Ee Ee' Ce)|]. split; [exact (surface_loaded _ _ _ _ _ "tp" _ _ _ _ _ _ eq_refl Etp Etp' Ctp)|]. split.
  - intros ->. apply bind_inv in Epl as (x & Ex & Epl). apply bind_inv in Epl as (x' & Ex' & Epl). apply bind_inv in Epl as (y & Ey & Epl). apply bind_inv in Epl as (y' & Ey' & Epl).
    apply bind_inv in Epl as (z & Ez & Epl). apply bind_inv in Epl as (z' & Ez' & Epl). injection Epl as -> -> ->.
    split; [exact (surface_loaded _ _ _ _ _ "d2m" _ _ _ _ _ _ eq_refl Ex Ex' Cd)|]. split; [exact (surface_loaded _ _ _ _ _ "u10" _ _ _ _ _ _ eq_refl Ey Ey' Ca)|].
    exact (surface_loaded _ _ _ _ _ "v10" _ _ _ _ _ _ eq_refl Ez Ez' Cb).
  - intros w ->. destruct tcw as [tcw|]; [|discriminate]. apply bind_inv in Cw as (w' & Cw & Q). injection Q as ->.
    destruct (load_data _ _ _ _ _ "tcw" u) as [x|ex] eqn:Ex; [|destruct ex; discriminate]. apply bind_inv in Etcw as (y & Ey & Q). injection Q as ->.
    exact (surface_loaded _ _ _ _ _ "tcw" _ _ _ _ _ _ eq_refl Ex Ey Cw).
Qed.

(** A file that lacks a latitude or a longitude of the grid is rejected. *)
Definition input_variables (lt : level_type) : list string :=
  ["u"; "v"; "sp"; "e"; "tp"; "tcw"]%string ++ match lt with pressure_levels => ["d2m"; "u10"; "v10"]%string | model_levels => [] end.
Definition has_file (template : string) (cal : calendar) (lt : level_type) (fs : files) (u : Z) (v : string) (f : era5_file) (lat lon : list R) : Prop :=
  exists name, format_template template cal u (levtype_of lt v) v = OK name /\ fs name = Some f /\ NoDup (map fst (ef_coords f)) /\ on_grid f lat lon.
Definition grid_from (fs : files) (path : res string) (u : Z) (lat lon : list R) : Prop :=
  exists f g la lo, at_time fs path u f g /\ labels f "latitude" la /\ labels f "longitude" lo /\
  forall i j, (i < List.length lat)%nat -> (j < List.length lon)%nat -> exists i' j', nth_error la i' = nth_error lat i /\ nth_error lo j' = nth_error lon j.
Lemma surface_grid fs path u lat lon x : surface_from fs path u lat lon x -> grid_from fs path u lat lon.
Proof.
  intros (f & g & la & lo & A & L1 & L2 & Q). exists f, g, la, lo. split; [exact A|]. split; [exact L1|]. split; [exact L2|]. intros i j Hi Hj.
  destruct (Q i j Hi Hj) as (i' & j' & Q1 & Q2 & _). eauto.
Qed.
Lemma columns_grid fs path u level lat lon x : columns_from fs path u level lat lon x -> grid_from fs path u lat lon.
Proof.
  intros (f & g & n & ls & la & lo & A & _ & _ & L1 & L2 & Q). exists f, g, la, lo. split; [exact A|]. split; [exact L1|]. split; [exact L2|]. intros i j Hi Hj.
  destruct (Q i j Hi Hj) as (i' & j' & Q1 & Q2 & _). eauto.
Qed.
Lemma labels_unique f n l l' : NoDup (map fst (ef_coords f)) -> In (n, Axis l) (ef_coords f) -> labels f n l' -> l' = l.
Proof. intros N H [Q|Q]; apply (get_in _ _ _ N) in H; apply (get_in _ _ _ N) in Q; congruence. Qed.
Lemma tcw_loaded template cal lt lv fs u d name f : load_aligned template cal lt lv fs u = OK d -> format_template template cal u "" "tcw" = OK name -> fs name = Some f -> raw_tcw d <> None.
Proof.
  intros H En Ef. unfold load_aligned in H. cbn zeta in H. 
  apply bind_inv in H as (q & _ & H). apply bind_inv in H as (level & _ & H). apply bind_inv in H as (lat & _ & H). apply bind_inv in H as (lon & _ & H).
  apply bind_inv in H as (q' & _ & H). apply bind_inv in H as (uu & _ & H). apply bind_inv in H as (u' & _ & H). apply bind_inv in H as (v & _ & H). apply bind_inv in H as (v' & _ & H).
  apply bind_inv in H as (sp & _ & H). apply bind_inv in H as (sp' & _ & H). apply bind_inv in H as ([d2m [u10 v10]] & _ & H).
  apply bind_inv in H as (e & _ & H). apply bind_inv in H as (e' & _ & H). apply bind_inv in H as (tp & _ & H). apply bind_inv in H as (tp' & _ & H). apply bind_inv in H as (tcw & Etcw & H).
  do 9 (apply bind_inv in H as (? & _ & H)). apply bind_inv in H as (w2 & Cw & H). injection H as <-. cbn [raw_tcw].
  destruct (load_data _ _ _ _ _ "tcw" u) as [y0|ex] eqn:Ex.
  - apply bind_inv in Etcw as (y & _ & Q). injection Q as <-. apply bind_inv in Cw as (w' & _ & Q). injection Q as <-. discriminate.
  - exfalso. destruct ex; try discriminate. unfold load_data in Ex. change (levtype_of lt "tcw") with ""%string in Ex. rewrite En in Ex. cbn [bind] in Ex. unfold open_da in Ex. rewrite Ef in Ex. revert Ex.
    destruct (Nat.eqb _ _); [|discriminate]. cbn [bind ef_coords ef_data]. destruct (get "time" _) as [[ts| | |]|]; try discriminate.
    destruct (index_of u ts) eqn:Ei; cbn [bind].
    + destruct (has "lev" _); [destruct (has "level" _); discriminate|discriminate].
    + clear -Ei. revert e0 Ei. induction ts as [|t ts IH]; cbn [index_of]; intros e0; [intros [= <-]; discriminate|]. destruct (Z.eqb t u); [discriminate|].
      destruct (index_of u ts); cbn [bind]; [discriminate|]. intros [= <-]. eauto.
Qed.
Theorem C110_missing_places_rejected template cal lt lv fs u v fq f lat lon la lo :
  has_file template cal lt fs u "q" fq lat lon -> lat <> [] -> lon <> [] -> In v (input_variables lt) -> has_file template cal lt fs u v f la lo ->
  (exists x, In x lat /\ ~ In x la) \/ (exists x, In x lon /\ ~ In x lo) -> forall d, load_aligned template cal lt lv fs u <> OK d.
Proof.
  intros (nq & Pq & Fq & Nq & G1 & G2) Na No Hv (n & P & Ff & Nf & G3 & G4) Hx d E.
  destruct (C110_own_places _ _ _ _ _ _ _ E) as ((f0 & g0 & A0 & L1 & L2) & _ & Hu & Hvv & Hsp & He & Htp & Hpl & Htcw).
  change (levtype_of lt "q") with (match lt with model_levels => "_ml" | pressure_levels => "_pl" end)%string in Pq.
  assert (f0 = fq) as ->. { destruct A0 as (n0 & ts & k & P0 & F0 & _). rewrite Pq in P0. injection P0 as <-. congruence. }
  apply (labels_unique _ _ _ _ Nq G1) in L1. apply (labels_unique _ _ _ _ Nq G2) in L2. rewrite L1, L2 in *.
  assert (G : grid_from fs (OK n) u lat lon).
  { rewrite <- P. unfold input_variables in Hv. apply in_app_or in Hv. destruct Hv as [Hv|Hv].
    - cbn [In] in Hv. destruct Hv as [<-|[<-|[<-|[<-|[<-|[<-|[]]]]]]].
      + now apply columns_grid in Hu.
      + now apply columns_grid in Hvv.
      + now apply surface_grid in Hsp.
      + now apply surface_grid in He.
      + now apply surface_grid in Htp.
      + destruct (raw_tcw d) as [w|] eqn:Ew; [|exfalso; exact (tcw_loaded _ _ _ _ _ _ _ _ _ E P Ff Ew)]. specialize (Htcw w eq_refl). now apply surface_grid in Htcw.
    - destruct lt; [destruct Hv|]. destruct (Hpl eq_refl) as (H1 & H2 & H3). cbn [In] in Hv. destruct Hv as [<-|[<-|[<-|[]]]].
      + now apply surface_grid in H1.
      + now apply surface_grid in H2.
      + now apply surface_grid in H3. }
  destruct G as (f1 & g1 & la1 & lo1 & A1 & M1 & M2 & Q). assert (f1 = f) as ->. { destruct A1 as (n0 & ts & k & P0 & F0 & _). congruence. }
  apply (labels_unique _ _ _ _ Nf G3) in M1. apply (labels_unique _ _ _ _ Nf G4) in M2. subst la1 lo1.
  assert (Za : (0 < List.length lat)%nat) by (destruct lat; [contradiction|cbn; lia]). assert (Zo : (0 < List.length lon)%nat) by (destruct lon; [contradiction|cbn; lia]).
  destruct Hx as [(x & Hx & Nx)|(x & Hx & Nx)]; destruct (In_nth_error _ _ Hx) as [i Hi]; assert (Li := Hi); apply (f_equal (fun o => match o with Some _ => true | None => false end)) in Li.
  - assert (i < List.length lat)%nat by (apply nth_error_Some; congruence). destruct (Q i 0%nat H Zo) as (i' & j' & Q1 & _). rewrite Hi in Q1. apply nth_error_In in Q1. contradiction.
  - assert (i < List.length lon)%nat by (apply nth_error_Some; congruence). destruct (Q 0%nat i Za H) as (i' & j' & _ & Q1). rewrite Hi in Q1. apply nth_error_In in Q1. contradiction.
Qed.

(** ** Grids that cover the grid of q are accepted *)
(** the file of a variable holds the values [x] of the grid, among others *)
Definition covers_surface (fs : files) (path : res string) (u : Z) (lat lon : list R) (x : nat -> nat -> R) : Prop :=
  exists la lo y, has_surface fs path u la lo y /\ (la = lat \/ NoDup la) /\ (lo = lon \/ NoDup lo) /\ incl lat la /\ incl lon lo /\
  forall i j i' j', (i < List.length lat)%nat -> (j < List.length lon)%nat -> nth_error la i' = nth_error lat i -> nth_error lo j' = nth_error lon j -> x i j = y i' j'.
Definition covers_levels (lv : levels) (fs : files) (path : res string) (u : Z) (lat lon level : list R) (x : nat -> nat -> list R) : Prop :=
  exists la lo ls y, has_levels lv fs path u la lo ls y /\ NoDup ls /\ (la = lat \/ NoDup la) /\ (lo = lon \/ NoDup lo) /\ incl lat la /\ incl lon lo /\ incl level ls /\
  forall i j i' j', (i < List.length lat)%nat -> (j < List.length lon)%nat -> nth_error la i' = nth_error lat i -> nth_error lo j' = nth_error lon j ->
    List.length (x i j) = List.length level /\ forall k k', (k < List.length level)%nat -> nth_error ls k' = nth_error level k -> nth k (x i j) 0%R = nth k' (y i' j') 0%R.
Definition hold_among (template : string) (cal : calendar) (lt : level_type) (lv : levels) (fs : files) (u : Z) (d : era5_data) : Prop :=
  let lat := raw_lat d in let lon := raw_lon d in
  let path levtype v := format_template template cal u levtype v in
  let suffix := (match lt with model_levels => "_ml" | pressure_levels => "_pl" end)%string in
  NoDup lat /\ NoDup lon /\ NoDup (raw_level d) /\
  (forall i j, (i < List.length lat)%nat -> (j < List.length lon)%nat -> List.length (raw_q (raw_at d i j)) = List.length (raw_level d)) /\
  has_levels lv fs (path suffix "q"%string) u lat lon (raw_level d) (fun i j => raw_q (raw_at d i j)) /\
  covers_levels lv fs (path suffix "u"%string) u lat lon (raw_level d) (fun i j => raw_u (raw_at d i j)) /\
  covers_levels lv fs (path suffix "v"%string) u lat lon (raw_level d) (fun i j => raw_v (raw_at d i j)) /\
  covers_surface fs (path "" "sp")%string u lat lon (fun i j => raw_sp (raw_at d i j)) /\
  covers_surface fs (path "" "e")%string u lat lon (fun i j => raw_e (raw_at d i j)) /\
  covers_surface fs (path "" "tp")%string u lat lon (fun i j => raw_tp (raw_at d i j)) /\
  (lt = pressure_levels ->
    covers_surface fs (path "" "d2m")%string u lat lon (fun i j => raw_d2m (raw_at d i j)) /\
    covers_surface fs (path "" "u10")%string u lat lon (fun i j => raw_u10 (raw_at d i j)) /\
    covers_surface fs (path "" "v10")%string u lat lon (fun i j => raw_v10 (raw_at d i j))) /\
  match raw_tcw d with
  | Some w => covers_surface fs (path "" "tcw")%string u lat lon w
  | None => exists name, path ""%string "tcw"%string = OK name /\ fs name = None
  end.
Lemma load_surface_axes template cal lt lv fs v u lat lon x : three_dim v = false -> has_surface fs (format_template template cal u "" v) u lat lon x ->
  exists y, load_data template cal lt lv fs v u = OK y /\ axis "latitude" y = OK lat /\ axis "longitude" y = OK lon /\
    forall i j, (i < List.length lat)%nat -> (j < List.length lon)%nat -> value y i j = x i j.
Proof.
  intros H3 (name & f & g & En & Ef & Fd & Al & (G1 & G2) & Hg). unfold load_data, levtype_of. rewrite H3, En. cbn [bind].
  destruct (open_ok fs name f u g Ef Fd) as (-> & ts & k & Et & Ek & Eg). cbn [bind ef_coords ef_data]. rewrite Et, Ek. cbn [bind]. cbn zeta.
  assert (Hl : has "lev" (opened f) = false) by (unfold has; rewrite opened_other by (cbn; intuition discriminate); now rewrite (get_absent _ _ Al)).
  rewrite Hl. cbn [bind]. rewrite Eg. eexists. split; [reflexivity|]. unfold axis. cbn [da_coords]. destruct Fd as (_ & N & _).
  rewrite !opened_other by (cbn; intuition discriminate). rewrite (get_in _ _ _ N G1), (get_in _ _ _ N G2). split; [reflexivity|]. split; [reflexivity|].
  intros i j Hi Hj. unfold value. cbn [da_at]. now rewrite Hg.
Qed.
Lemma indexer_covers new old : NoDup new -> old = new \/ NoDup old -> incl new old -> exists Ix, indexer new old = OK Ix /\
  forall i, (i < List.length new)%nat -> exists i', nth i Ix None = Some i' /\ nth_error old i' = nth_error new i /\ (i' < List.length old)%nat.
Proof.
  intros Nn No Hi. assert (N : NoDup old) by (destruct No as [->|]; assumption). destruct (indexer_total new old N Nn Hi) as (Ix & E & Q). exists Ix. split; [exact E|].
  intros i H. destruct (Q i H) as (i' & E'). exists i'. split; [exact E'|]. apply indexer_ok in E as [_ E]. destruct (E i i' E') as [E1 _]. split; [exact E1|].
  apply nth_error_Some. rewrite E1. now apply nth_error_Some.
Qed.
Lemma surface_covered template cal lt lv fs v u lat lon x : three_dim v = false -> NoDup lat -> NoDup lon -> covers_surface fs (format_template template cal u "" v) u lat lon x ->
  exists y f h, load_data template cal lt lv fs v u = OK y /\ surface_on lat lon y = OK f /\ check_nans 0%R lat lon f = OK h /\
    forall i j, (i < List.length lat)%nat -> (j < List.length lon)%nat -> h i j = x i j.
Proof.
  intros H3 N1 N2 (la & lo & y & Hs & D1 & D2 & I1 & I2 & Q). destruct (load_surface_axes template cal lt lv fs v u la lo y H3 Hs) as (z & Ez & A1 & A2 & V).
  destruct (indexer_covers lat la N1 D1 I1) as (Ix & EI & PI). destruct (indexer_covers lon lo N2 D2 I2) as (Jx & EJ & PJ).
  exists z. eexists. unfold surface_on. rewrite A1, A2. cbn [bind]. rewrite EI, EJ. cbn [bind].
  destruct (check_total 0%R lat lon (fun i j => match nth i Ix None, nth j Jx None with Some i', Some j' => Some (value z i' j') | _, _ => None end) x) as (h & Eh & Qh).
  { intros i j Hi Hj. destruct (PI i Hi) as (i' & -> & P1 & P2). destruct (PJ j Hj) as (j' & -> & P3 & P4). f_equal. rewrite V by assumption. symmetry. now apply Q. }
  exists h. split; [exact Ez|]. split; [reflexivity|]. split; [exact Eh|exact Qh].
Qed.
Lemma column_covered template cal lt lv fs v u lat lon level x : three_dim v = true -> NoDup lat -> NoDup lon -> NoDup level ->
  covers_levels lv fs (format_template template cal u (match lt with model_levels => "_ml" | pressure_levels => "_pl" end) v) u lat lon level x ->
  exists y f h, load_data template cal lt lv fs v u = OK y /\ column_on level lat lon y = OK f /\ check_nans [] lat lon f = OK h /\
    forall i j, (i < List.length lat)%nat -> (j < List.length lon)%nat -> h i j = x i j.
Proof.
  intros H3 N1 N2 N3 (la & lo & ls & y & Hs & Nl & D1 & D2 & I1 & I2 & I3 & Q). destruct (load_levels template cal lt lv fs v u la lo ls y H3 Hs) as (z & Ez & A0 & A1 & A2 & V).
  destruct (indexer_covers lat la N1 D1 I1) as (Ix & EI & PI). destruct (indexer_covers lon lo N2 D2 I2) as (Jx & EJ & PJ). destruct (indexer_covers level ls N3 (or_intror Nl) I3) as (Kx & EK & PK).
  exists z. eexists. unfold column_on. rewrite A0, A1, A2. cbn [bind]. rewrite EI, EJ, EK. cbn [bind].
  destruct (check_total (@nil R) lat lon (fun i j => match nth i Ix None, nth j Jx None with Some i', Some j' => all_some (map (option_map (fun k => nth k (da_at z i' j') 0%R)) Kx) | _, _ => None end) x) as (h & Eh & Qh).
  { intros i j Hi Hj. destruct (PI i Hi) as (i' & -> & P1 & P2). destruct (PJ j Hj) as (j' & -> & P3 & P4). rewrite <- all_some_map. f_equal. rewrite V by assumption.
    destruct (Q i j i' j' Hi Hj P1 P3) as [L Qk]. destruct (indexer_ok _ _ _ EK) as [LK _]. apply (nth_ext _ _ None None); [rewrite !map_length; congruence|]. rewrite map_length. intros k Hk. rewrite LK in Hk.
    rewrite (nth_indep (map Some _) None (Some 0%R)) by (rewrite map_length; lia). rewrite map_nth.
    rewrite (nth_indep (map (option_map _) _) None (option_map (fun k => nth k (y i' j') 0%R) None)) by (rewrite map_length; lia). rewrite map_nth.
    destruct (PK k Hk) as (k' & -> & P5 & P6). cbn [option_map]. f_equal. symmetry. now apply Qk. }
  exists h. split; [exact Ez|]. split; [reflexivity|]. split; [exact Eh|exact Qh].
Qed.
Lemma nth_error_unique {A} (l : list A) i j x : NoDup l -> nth_error l i = Some x -> nth_error l j = Some x -> i = j.
Proof. intros N H1 H2. apply (proj1 (NoDup_nth_error l) N); [apply nth_error_Some; congruence|congruence]. Qed.
(** Files with the values of the grid of q among others, in whatever order, are accepted, and these values are used. *)
Theorem C110_covering_grids_accepted template cal lt lv fs u d : hold_among template cal lt lv fs u d ->
  exists d', load_aligned template cal lt lv fs u = OK d' /\ same_data lt d d'.
Proof.
  intros (Na & No & Nl & Hlen & Hq & Hu & Hv & Hsp & He & Htp & Hpl & Htcw). cbn zeta in *.
  assert (Cq : covers_levels lv fs (format_template template cal u (match lt with model_levels => "_ml" | pressure_levels => "_pl" end) "q") u (raw_lat d) (raw_lon d) (raw_level d) (fun i j => raw_q (raw_at d i j))).
  { exists (raw_lat d), (raw_lon d), (raw_level d), (fun i j => raw_q (raw_at d i j)). split; [exact Hq|]. do 3 (split; [auto|]). do 3 (split; [apply incl_refl|]). intros i j i' j' Hi Hj E1 E2. split; [now apply Hlen|].
    destruct (nth_error (raw_lat d) i) as [x|] eqn:F1; [|apply nth_error_None in F1; lia]. rewrite (nth_error_unique _ _ _ _ Na E1 F1).
    destruct (nth_error (raw_lon d) j) as [x'|] eqn:F2; [|apply nth_error_None in F2; lia]. rewrite (nth_error_unique _ _ _ _ No E2 F2).
    intros k k' Hk E3. destruct (nth_error (raw_level d) k) as [x''|] eqn:F3; [|apply nth_error_None in F3; lia]. now rewrite (nth_error_unique _ _ _ _ Nl E3 F3). }
  destruct (load_levels template cal lt lv fs "q" u _ _ _ _ eq_refl Hq) as (q0 & Eq0 & X1 & X2 & X3 & _).
  destruct (column_covered template cal lt lv fs "q" u _ _ _ _ eq_refl Na No Nl Cq) as (q & q1 & q2 & Eq & Eq1 & Eq2 & Vq). assert (q = q0) as -> by congruence.
  destruct (column_covered template cal lt lv fs "u" u _ _ _ _ eq_refl Na No Nl Hu) as (uu & u1 & u2 & Eu & Eu1 & Eu2 & Vu).
  destruct (column_covered template cal lt lv fs "v" u _ _ _ _ eq_refl Na No Nl Hv) as (v & v1 & v2 & Ev & Ev1 & Ev2 & Vv).
  destruct (surface_covered template cal lt lv fs "sp" u _ _ _ eq_refl Na No Hsp) as (sp & sp1 & sp2 & Esp & Esp1 & Esp2 & Vsp).
  destruct (surface_covered template cal lt lv fs "e" u _ _ _ eq_refl Na No He) as (e & e1 & e2 & Ee & Ee1 & Ee2 & Ve).
  destruct (surface_covered template cal lt lv fs "tp" u _ _ _ eq_refl Na No Htp) as (tp & tp1 & tp2 & Etp & Etp1 & Etp2 & Vtp).
  assert (T : exists w1 w2, match load_data template cal lt lv fs "tcw" u with OK x => do y <- surface_on (raw_lat d) (raw_lon d) x; OK (Some y) | Err FileNotFoundError => OK None | Err e => Err e end = OK w1 /\
    match w1 with Some w => do w <- check_nans 0%R (raw_lat d) (raw_lon d) w; OK (Some w) | None => OK None end = OK w2 /\
    match raw_tcw d, w2 with Some a, Some b => forall i j, (i < List.length (raw_lat d))%nat -> (j < List.length (raw_lon d))%nat -> a i j = b i j | None, None => True | _, _ => False end).
  { destruct (raw_tcw d) as [w|].
    - destruct (surface_covered template cal lt lv fs "tcw" u _ _ _ eq_refl Na No Htcw) as (y & y1 & y2 & -> & E1 & E2 & Vy). exists (Some y1), (Some y2). rewrite E1. cbn [bind]. split; [reflexivity|]. rewrite E2. split; [reflexivity|].
      intros i j Hi Hj. now rewrite Vy.
    - destruct Htcw as (name & En & Ef). exists None, None. split; [|split; [reflexivity|exact I]]. unfold load_data. change (levtype_of lt "tcw") with ""%string. rewrite En. cbn [bind]. unfold open_da. rewrite Ef. reflexivity. }
  destruct T as (w1 & w2 & Ew & Ew2 & Vw). unfold load_aligned. cbn zeta. rewrite Eq0. cbn [bind]. rewrite X1, X2, X3. cbn [bind]. rewrite Eq1. cbn [bind]. rewrite Eu. cbn [bind]. rewrite Eu1. cbn [bind]. rewrite Ev. cbn [bind]. rewrite Ev1. cbn [bind].
  rewrite Esp. cbn [bind]. rewrite Esp1. cbn [bind].
  destruct lt.
  - cbn [bind]. rewrite Ee. cbn [bind]. rewrite Ee1. cbn [bind]. rewrite Etp. cbn [bind]. rewrite Etp1. cbn [bind]. rewrite Ew. cbn [bind]. rewrite Eq2, Eu2, Ev2, Esp2. cbn [bind].
    destruct (check_total 0%R (raw_lat d) (raw_lon d) (fun _ _ => Some 0%R) (fun _ _ => 0%R)) as (z & Ez & _); [reflexivity|]. rewrite Ez. cbn [bind]. rewrite Ee2, Etp2. cbn [bind]. rewrite Ew2. cbn [bind].
    eexists. split; [reflexivity|].
    unfold same_data. cbn [raw_level raw_lat raw_lon raw_at raw_tcw raw_q raw_u raw_v raw_sp raw_tp raw_e raw_d2m raw_u10 raw_v10]. do 3 (split; [reflexivity|]). split; [|exact Vw].
    intros i j Hi Hj. rewrite Vq, Vu, Vv, Vsp, Vtp, Ve by assumption. repeat (split; [reflexivity|]). discriminate.
  - destruct (Hpl eq_refl) as (Hd & H10 & Hv10).
    destruct (surface_covered template cal pressure_levels lv fs "d2m" u _ _ _ eq_refl Na No Hd) as (d2m & d1 & d2 & Ed & Ed1 & Ed2 & Vd).
    destruct (surface_covered template cal pressure_levels lv fs "u10" u _ _ _ eq_refl Na No H10) as (u10 & a1 & a2 & Ea & Ea1 & Ea2 & Va).
    destruct (surface_covered template cal pressure_levels lv fs "v10" u _ _ _ eq_refl Na No Hv10) as (v10 & b1 & b2 & Eb & Eb1 & Eb2 & Vb).
    rewrite Ed. cbn [bind]. rewrite Ed1. cbn [bind]. rewrite Ea. cbn [bind]. rewrite Ea1. cbn [bind]. rewrite Eb. cbn [bind]. rewrite Eb1. cbn [bind].
    rewrite Ee. cbn [bind]. rewrite Ee1. cbn [bind]. rewrite Etp. cbn [bind]. rewrite Etp1. cbn [bind]. rewrite Ew. cbn [bind]. rewrite Eq2, Eu2, Ev2, Esp2, Ed2, Ea2, Eb2, Ee2, Etp2. cbn [bind]. rewrite Ew2. cbn [bind].
    eexists. split; [reflexivity|].
    unfold same_data. cbn [raw_level raw_lat raw_lon raw_at raw_tcw raw_q raw_u raw_v raw_sp raw_tp raw_e raw_d2m raw_u10 raw_v10]. do 3 (split; [reflexivity|]). split; [|exact Vw].
    intros i j Hi Hj. rewrite Vq, Vu, Vv, Vsp, Vtp, Ve by assumption. repeat (split; [reflexivity|]). intros _. rewrite Vd, Va, Vb by assumption. auto.
Qed.
(** Files that all have the grid of q: the data they hold (C104). *)
Theorem C110_equal_grids template cal lt lv fs u d : hold template cal lt lv fs u d -> NoDup (raw_lat d) -> NoDup (raw_lon d) -> NoDup (raw_level d) ->
  (forall i j, (i < List.length (raw_lat d))%nat -> (j < List.length (raw_lon d))%nat -> let c := raw_at d i j in
    List.length (raw_q c) = List.length (raw_level d) /\ List.length (raw_u c) = List.length (raw_level d) /\ List.length (raw_v c) = List.length (raw_level d)) ->
  exists d', load_aligned template cal lt lv fs u = OK d' /\ same_data lt d d'.
Proof.
  intros (Hq & Hu & Hv & Hsp & He & Htp & Hpl & Htcw) Na No Nl Hlen. cbn zeta in *. apply C110_covering_grids_accepted. unfold hold_among. cbn zeta.
  assert (S : forall path x, has_surface fs path u (raw_lat d) (raw_lon d) x -> covers_surface fs path u (raw_lat d) (raw_lon d) x).
  { intros path x H. exists (raw_lat d), (raw_lon d), x. split; [exact H|]. do 2 (split; [auto|]). do 2 (split; [apply incl_refl|]). intros i j i' j' Hi Hj E1 E2.
    destruct (nth_error (raw_lat d) i) as [y|] eqn:F1; [|apply nth_error_None in F1; lia]. destruct (nth_error (raw_lon d) j) as [y'|] eqn:F2; [|apply nth_error_None in F2; lia].
    now rewrite (nth_error_unique _ _ _ _ Na E1 F1), (nth_error_unique _ _ _ _ No E2 F2). }
  assert (C : forall path x, has_levels lv fs path u (raw_lat d) (raw_lon d) (raw_level d) x ->
    (forall i j, (i < List.length (raw_lat d))%nat -> (j < List.length (raw_lon d))%nat -> List.length (x i j) = List.length (raw_level d)) ->
    covers_levels lv fs path u (raw_lat d) (raw_lon d) (raw_level d) x).
  { intros path x H L. exists (raw_lat d), (raw_lon d), (raw_level d), x. split; [exact H|]. do 3 (split; [auto|]). do 3 (split; [apply incl_refl|]). intros i j i' j' Hi Hj E1 E2. split; [now apply L|].
    destruct (nth_error (raw_lat d) i) as [y|] eqn:F1; [|apply nth_error_None in F1; lia]. destruct (nth_error (raw_lon d) j) as [y'|] eqn:F2; [|apply nth_error_None in F2; lia].
    rewrite (nth_error_unique _ _ _ _ Na E1 F1), (nth_error_unique _ _ _ _ No E2 F2). intros k k' Hk E3.
    destruct (nth_error (raw_level d) k) as [y''|] eqn:F3; [|apply nth_error_None in F3; lia]. now rewrite (nth_error_unique _ _ _ _ Nl E3 F3). }
  do 3 (split; [assumption|]). split; [intros i j Hi Hj; now apply Hlen|]. split; [exact Hq|]. split; [apply C; [exact Hu|intros i j Hi Hj; now apply Hlen]|].
  split; [apply C; [exact Hv|intros i j Hi Hj; now apply Hlen]|]. do 3 (split; [now apply S|]). split.
  - intros E. destruct (Hpl E) as (H1 & H2 & H3). auto.
  - destruct (raw_tcw d); [now apply S|exact Htcw].
Qed.
(** So what is preprocessed is what the files hold on the grid of q, with whatever grids of the other files: shared.py
    l.141-213 as in C105. *)
Definition preprocess_aligned argsort (st : level_settings) (template : string) (lt : level_type) (lv : levels) (fs : files) (p : prepcfg) (u : Z) : res (dataset out_cell) :=
  do d <- load_aligned template (pc_cal p) lt lv fs u; preprocess_time argsort st (nseconds p) d.
Theorem C110_preprocessed_as_held argsort st template lt lv fs p (raw : Z -> era5_data) :
  same_settings st lt lv -> (forall u, In u (input_dates p) -> hold_among template (pc_cal p) lt lv fs u (raw u)) ->
  forall u, In u (input_dates p) -> preprocess_aligned argsort st template lt lv fs p u = preprocess_time argsort st (nseconds p) (raw u).
Proof.
  intros Hs Hh u Hu. destruct (C110_covering_grids_accepted _ _ _ _ _ _ _ (Hh u Hu)) as (d' & E & Q). unfold preprocess_aligned. rewrite E. cbn [bind]. symmetry. now apply (same_data_same_result _ _ lt lv).
Qed.

(** ** Concrete cases *)
(** the files of C105_case, but precipitation from the south to the north and one longitude further to the west *)
Definition ex_tp_lat : list R := [-1; 0; 1; 2]%R.
Definition ex_tp_lon : list R := [357; 358; 359; 360; 361]%R.
Definition ex_tp (lat lon : list R) (x : nat -> nat -> R) : era5_file :=
  mkfile 1 [("time", Times (input_dates ex_prep)); ("latitude", Axis lat); ("longitude", Axis lon)]%string (map (fun _ i j => [x i j]) (input_dates ex_prep)).
Definition ex_mixed : files := fun name => if String.eqb name "data/ERA5_tp.nc" then Some (ex_tp ex_tp_lat ex_tp_lon (fun i _ => INR (3 - i) / 1000)%R) else ex_files true name.
Definition ex_lacking : files := fun name => if String.eqb name "data/ERA5_tp.nc" then Some (ex_tp [2; 1; 0]%R ex_lon (fun i _ => INR i / 1000)%R) else ex_files true name.
Lemma ex_mixed_other name : String.eqb name "data/ERA5_tp.nc" = false -> ex_mixed name = ex_files true name.
Proof. unfold ex_mixed. now intros ->. Qed.
Lemma ex_nodup : NoDup ex_lat /\ NoDup ex_lon /\ NoDup [850; 300; 1000]%R /\ NoDup ex_tp_lat /\ NoDup ex_tp_lon.
Proof. unfold ex_lat, ex_lon, ex_tp_lat, ex_tp_lon. repeat split; repeat constructor; cbn; intuition lra. Qed.
Lemma ex_covers_surface path x : has_surface ex_mixed path 0 ex_lat ex_lon x -> covers_surface ex_mixed path 0 ex_lat ex_lon x.
Proof.
  destruct ex_nodup as (Na & No & _). intros H. exists ex_lat, ex_lon, x. split; [exact H|]. do 2 (split; [auto|]). do 2 (split; [apply incl_refl|]). intros i j i' j' Hi Hj E1 E2.
  destruct (nth_error ex_lat i) as [y|] eqn:F1; [|apply nth_error_None in F1; lia]. destruct (nth_error ex_lon j) as [y'|] eqn:F2; [|apply nth_error_None in F2; lia].
  now rewrite (nth_error_unique _ _ _ _ Na E1 F1), (nth_error_unique _ _ _ _ No E2 F2).
Qed.
Lemma ex_covers_levels lv path level x : NoDup level -> (forall i j, List.length (x i j) = List.length level) -> has_levels lv ex_mixed path 0 ex_lat ex_lon level x -> covers_levels lv ex_mixed path 0 ex_lat ex_lon level x.
Proof.
  destruct ex_nodup as (Na & No & _). intros Nl L H. exists ex_lat, ex_lon, level, x. split; [exact H|]. do 3 (split; [auto|]). do 3 (split; [apply incl_refl|]). intros i j i' j' Hi Hj E1 E2. split; [apply L|].
  destruct (nth_error ex_lat i) as [y|] eqn:F1; [|apply nth_error_None in F1; lia]. destruct (nth_error ex_lon j) as [y'|] eqn:F2; [|apply nth_error_None in F2; lia].
  rewrite (nth_error_unique _ _ _ _ Na E1 F1), (nth_error_unique _ _ _ _ No E2 F2). intros k k' Hk E3.
  destruct (nth_error level k) as [y''|] eqn:F3; [|apply nth_error_None in F3; lia]. now rewrite (nth_error_unique _ _ _ _ Nl E3 F3).
Qed.
Lemma ex_first : In 0%Z (input_dates ex_prep).
Proof. rewrite ex_dates. cbn. auto. Qed.
Lemma ex_tp_lookup i i' : (i < 4)%nat -> nth_error ex_tp_lat i' = nth_error ex_lat i -> i' = (3 - i)%nat.
Proof.
  intros Hi E. destruct ex_nodup as (_ & _ & _ & N & _).
  destruct i as [|[|[|[|i]]]]; [| | | |lia]; cbn [nth_error ex_lat] in E; eapply (nth_error_unique _ _ _ _ N E); reflexivity.
Qed.
Example C110_case : hold_among ex_template (pc_cal ex_prep) pressure_levels (Numbers [850; 300; 1000]%Z) ex_mixed 0 (ex_held true 0) /\
  (forall d, load_aligned ex_template (pc_cal ex_prep) pressure_levels (Numbers [850; 300; 1000]%Z) ex_lacking 0 <> OK d).
Proof.
  pose proof ex_first as Hu. destruct ex_nodup as (Na & No & Nl & Nta & Nto). split.
  - unfold hold_among. cbn zeta. cbn [ex_held raw_lat raw_lon raw_level raw_at raw_tcw ex_cell raw_q raw_u raw_v raw_sp raw_e raw_tp raw_d2m raw_u10 raw_v10].
    do 3 (split; [assumption|]). split; [reflexivity|].
    split; [eapply ex_column_ok; [exact Hu|now apply ex_path|reflexivity|reflexivity]|].
    split; [apply ex_covers_levels; [exact Nl|reflexivity|]; eapply ex_column_ok; [exact Hu|now apply ex_path|reflexivity|reflexivity]|].
    split; [apply ex_covers_levels; [exact Nl|reflexivity|]; eapply ex_column_ok; [exact Hu|now apply ex_path|reflexivity|reflexivity]|].
    split; [apply ex_covers_surface; eapply ex_surface_ok; [exact Hu|now apply ex_path|reflexivity]|].
    split; [apply ex_covers_surface; eapply ex_surface_ok; [exact Hu|now apply ex_path|reflexivity]|].
    split.
    { exists ex_tp_lat, ex_tp_lon, (fun i _ => INR (3 - i) / 1000)%R. split; [|split; [auto|split; [auto|split; [|split]]]].
      - destruct (In_nth_error _ _ Hu) as [k Hk]. exists "data/ERA5_tp.nc"%string, (ex_tp ex_tp_lat ex_tp_lon (fun i _ => INR (3 - i) / 1000)%R), (fun i j => [INR (3 - i) / 1000]%R).
        split; [now apply ex_path|]. split; [reflexivity|]. split; [|split; [|split; [|reflexivity]]].
        + split; [reflexivity|]. split; [repeat constructor; cbn; intuition discriminate|]. exists (input_dates ex_prep), k. split; [left; cbn; auto|]. split; [exact ex_times|]. split; [exact Hk|].
          cbn [ex_tp ef_data]. now apply (const_data _ _ _ 0%Z).
        + unfold absent. cbn. intuition discriminate.
        + split; cbn; auto.
      - intros x Hx. unfold ex_lat, ex_tp_lat in *. cbn in *. intuition.
      - intros x Hx. unfold ex_lon, ex_tp_lon in *. cbn in *. intuition.
      - intros i j i' j' Hi Hj E1 _. change (List.length ex_lat) with 4%nat in Hi. rewrite (ex_tp_lookup i i' Hi E1). replace (3 - (3 - i))%nat with i by lia. reflexivity. }
    split; [intros _; split; [apply ex_covers_surface; eapply ex_surface_ok; [exact Hu|now apply ex_path|reflexivity]|split; apply ex_covers_surface; (eapply ex_surface_ok; [exact Hu|now apply ex_path|reflexivity])]|].
    apply ex_covers_surface. eapply ex_surface_ok; [exact Hu|now apply ex_path|reflexivity].
  - eapply (C110_missing_places_rejected _ _ _ _ _ _ "tp" _ _ ex_lat ex_lon [2; 1; 0]%R ex_lon).
    + eexists. split; [now apply ex_path|]. split; [reflexivity|]. split; [repeat constructor; cbn; intuition discriminate|]. split; cbn; auto.
    + discriminate.
    + discriminate.
    + cbn. auto 10.
    + eexists. split; [now apply ex_path|]. split; [reflexivity|]. split; [repeat constructor; cbn; intuition discriminate|]. split; cbn; auto.
    + left. exists (-1)%R. split; [unfold ex_lat; cbn; auto|cbn; intuition lra].
Qed.
