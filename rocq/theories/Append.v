(** * C94, C95: appending to a netCDF file (preprocessing/xarray_append.py), and what a crash in between leaves *)
From Coq Require Import Arith Lia Bool List ZArith String Permutation.
From Verif Require Import Num Arr Core Track Progress Run Calendar Load Prep.
Import ListNotations.
Local Open Scope string_scope.
Local Open Scope list_scope.

Section Append.
Context {N : NumOps}.

(** ** Model: netCDF files *)
(** What is stored: numbers, counts of seconds (times), or nothing yet (the fill value; nan for the float variables
    that xarray creates). *)
Inductive stored := Value (x : N) | Count (z : Z) | Fill.
(** A variable has named dimensions and a value per index.  [v_ref]: reference date of a time variable, whose units are
    "seconds since [v_ref]" and which has a calendar attribute; its counts are integers. *)
Record ncvar := mkncvar { v_dims : list string; v_ref : option Z; v_data : list nat -> stored }.
(** a file: length of the unlimited dimension, variables by name *)
Record nc := mknc { nc_size : nat; nc_vars : string -> option ncvar }.
(** A data set in memory: numbers and dates (microseconds since 1970). *)
Inductive value := Number (x : N) | Date (t : Z).
Record dsvar := mkdsvar { d_dims : list string; d_data : list nat -> value }.

(** xr.conventions.encode_cf_variable with the units of the file; dates are assigned to a variable of integers, which
    truncates towards zero (l.13-21, l.29) *)
Definition encode (ref : option Z) (v : value) : stored :=
  match v, ref with Number x, _ => Value x | Date t, Some r => Count (Z.quot (t - r) 1000000) | Date t, None => Count t end.
(** l.22: data.dims.index(expanding_dim) *)
Fixpoint index_of (s : string) (l : list string) : option nat :=
  match l with [] => None | x :: l => if String.eqb x s then Some 0%nat else match index_of s l with Some k => Some (S k) | None => None end end.
Fixpoint replace {A} (k : nat) (x : A) (l : list A) : list A :=
  match l, k with [], _ => [] | _ :: l, O => x :: l | y :: l, S k => y :: replace k x l end.
(** l.10-29: _expand_variable.  Writing nc_variable[..., n:n+added, ...] = data. *)
Definition expand_variable (v : ncvar) (data : dsvar) (k n added : nat) : ncvar :=
  mkncvar (v_dims v) (v_ref v)
    (fun i => let r := nth k i 0%nat in
              if (Nat.leb n r && Nat.ltb r (n + added))%bool then encode (v_ref v) (d_data data (replace k (r - n)%nat i)) else v_data v i).
Definition set_var (name : string) (v : ncvar) (vs : string -> option ncvar) : string -> option ncvar :=
  fun x => if String.eqb x name then Some v else vs x.
(** l.38-44, one variable of the data set *)
Definition append_variable (dim : string) (n added : nat) (f : nc) (nv : string * dsvar) : res nc :=
  let '(name, data) := nv in
  match index_of dim (d_dims data) with
  | None => OK f
  | Some k => match nc_vars f name with
              | None => Err IndexError
              | Some v => OK (mknc (Nat.max (nc_size f) (n + added)) (set_var name (expand_variable v data k n added) (nc_vars f)))
              end
  end.
Fixpoint append_variables (dim : string) (n added : nat) (f : nc) (ds : list (string * dsvar)) : res nc :=
  match ds with [] => OK f | nv :: ds => do f <- append_variable dim n added f nv; append_variables dim n added f ds end.
(** l.32-44: append_to_netcdf; [ds]: the variables and coordinates in the order of the data set *)
Definition append_to_netcdf (dim : string) (added : nat) (f : nc) (ds : list (string * dsvar)) : res nc :=
  append_variables dim (nc_size f) added f ds.
(** to_netcdf(mode="w", unlimited_dims=["time"]) (shared.py l.224-231): every variable of the data set is written, with
    [size] times and nothing behind them; time in seconds since 1900-01-01 *)
Definition to_netcdf (ref : Z) (size : nat) (ds : list (string * dsvar)) : nc :=
  mknc size (fun name => match find (fun nv => String.eqb (fst nv) name) ds with
                         | Some (_, d) => let r := if String.eqb name "time" then Some ref else None in
                             Some (mkncvar (d_dims d) r (fun i => match index_of "time" (d_dims d) with
                                                                  | Some k => if Nat.ltb (nth k i 0%nat) size then encode r (d_data d i) else Fill
                                                                  | None => encode r (d_data d i) end))
                         | None => None end).

(** ** Model: the data set of one time (shared.py l.190-218) *)
Definition fields : list (string * (slice N -> arr N)) :=
  [("fx_upper", fun s => fx_upper (sl_fluxes s)); ("fy_upper", fun s => fy_upper (sl_fluxes s)); ("fx_lower", fun s => fx_lower (sl_fluxes s));
   ("fy_lower", fun s => fy_lower (sl_fluxes s)); ("s_upper", fun s => s_upper (sl_states s)); ("s_lower", fun s => s_lower (sl_states s));
   ("evap", fun s => evap (sl_fluxes s)); ("precip", fun s => precip (sl_fluxes s))]%string.
Definition field_dims : list string := ["time"; "latitude"; "longitude"]%string.
Definition field_var (g : slice N -> arr N) (s : slice N) : dsvar := mkdsvar field_dims (fun i => Number (at_ (g s) (nth 1 i 0%nat) (nth 2 i 0%nat))).
(** expand_dims("time"): one time; [static]: latitude, longitude and their bounds *)
Definition dataset_of (static : list (string * dsvar)) (t : Z) (s : slice N) : list (string * dsvar) :=
  ("time"%string, mkdsvar ["time"%string] (fun _ => Date t)) :: map (fun nf => (fst nf, field_var (snd nf) s)) fields ++ static.

(** ** Specification *)
(** what an input file of the tracker has for a time (tracking/io.py loads these) *)
Definition contents : list (string * (slice N -> arr N)) :=
  [("s_upper", fun s => s_upper (sl_states s)); ("s_lower", fun s => s_lower (sl_states s));
   ("fx_upper", fun s => fx_upper (sl_fluxes s)); ("fx_lower", fun s => fx_lower (sl_fluxes s)); ("fy_upper", fun s => fy_upper (sl_fluxes s)); ("fy_lower", fun s => fy_lower (sl_fluxes s));
   ("precip", fun s => precip (sl_fluxes s)); ("evap", fun s => evap (sl_fluxes s))]%string.
Lemma contents_fields name g : In (name, g) contents <-> In (name, g) fields.
Proof. cbn. tauto. Qed.
(** reading a file (xarray decodes the times with the units of the file) *)
Definition read_time (f : nc) (r : nat) : option Z :=
  match nc_vars f "time" with Some v => match v_data v [r], v_ref v with Count z, Some ref => Some (ref + z * 1000000)%Z | _, _ => None end | None => None end.
Definition read_field (f : nc) (name : string) (r i j : nat) : stored :=
  match nc_vars f name with Some v => v_data v [r; i; j] | None => Fill end.
(** the file has the given records in this order, complete, and no others *)
Definition holds (f : nc) (l : ncfile N) : Prop :=
  nc_size f = List.length l /\
  forall r t s, nth_error l r = Some (t, s) -> read_time f r = Some t /\
    forall name g i j, In (name, g) contents -> read_field f name r i j = Value (at_ (g s) i j).
(** dates that the units "seconds since" can express *)
Definition whole_seconds (ref t : Z) : Prop := (1000000 | t - ref)%Z.
(** a file of preprocessing: time and the fields with their dimensions *)
Definition well_formed (ref : Z) (f : nc) : Prop :=
  (exists v, nc_vars f "time" = Some v /\ v_dims v = ["time"%string] /\ v_ref v = Some ref) /\
  forall name g, In (name, g) contents -> exists v, nc_vars f name = Some v /\ v_dims v = field_dims /\ v_ref v = None.

(** ** One variable *)
Lemma encode_date ref t : whole_seconds ref t -> encode (Some ref) (Date t) = Count ((t - ref) / 1000000) /\ (ref + (t - ref) / 1000000 * 1000000 = t)%Z.
Proof.
  intros [k Hk]. cbn. assert (E : (t - ref = k * 1000000)%Z) by exact Hk. rewrite E, Z.quot_mul, Z.div_mul by lia. split; [reflexivity|lia].
Qed.
Lemma index_of_none s l : index_of s l = None <-> ~ In s l.
Proof.
  induction l as [|x l IH]; cbn; [tauto|]. destruct (String.eqb_spec x s) as [->|H]; [split; [discriminate|tauto]|].
  destruct (index_of s l) as [k|]; split; intros Q; try discriminate; [|intros [->|Hi]; [congruence|]; now apply IH|reflexivity].
  assert (Some k = None) by (apply IH; tauto). discriminate.
Qed.
Lemma replace_id {A} k (l : list A) d : replace k (nth k l d) l = l.
Proof. revert k. induction l as [|a l IH]; intros [|k]; cbn; auto. now rewrite IH. Qed.
Lemma replace_replace {A} k (l : list A) x y : replace k x (replace k y l) = replace k x l.
Proof. revert k. induction l as [|a l IH]; intros [|k]; cbn; auto. now rewrite IH. Qed.
Lemma nth_replace {A} k (l : list A) x d : (k < List.length l)%nat -> nth k (replace k x l) d = x.
Proof. revert k. induction l as [|a l IH]; intros [|k] Hk; cbn in *; try lia; auto. apply IH. lia. Qed.

Definition has_dim (dim : string) (nv : string * dsvar) : bool := match index_of dim (d_dims (snd nv)) with Some _ => true | None => false end.
(** Appending as a function on variables *)
Lemma append_variables_spec dim n added ds : forall f, NoDup (map fst ds) -> (forall name d, In (name, d) ds -> index_of dim (d_dims d) <> None -> nc_vars f name <> None) ->
  exists f', append_variables dim n added f ds = OK f' /\
    nc_size f' = (if existsb (has_dim dim) ds then Nat.max (nc_size f) (n + added) else nc_size f) /\
    (forall name, (forall d, In (name, d) ds -> index_of dim (d_dims d) = None) -> nc_vars f' name = nc_vars f name) /\
    (forall name d k v, In (name, d) ds -> index_of dim (d_dims d) = Some k -> nc_vars f name = Some v -> nc_vars f' name = Some (expand_variable v d k n added)).
Proof.
  induction ds as [|[name d] ds IH]; intros f Hnd Hf; cbn [append_variables].
  - exists f. cbn. repeat split; auto. intros ? ? ? ? [].
  - cbn [map fst] in Hnd. inversion Hnd as [|? ? Hni Hnd']; subst.
    unfold append_variable. destruct (index_of dim (d_dims d)) as [k|] eqn:Ek; cbn [bind].
    + destruct (nc_vars f name) as [v|] eqn:Ev; [|now destruct (Hf name d (or_introl eq_refl) ltac:(congruence))]. cbn [bind].
      set (f1 := mknc _ _).
      destruct (IH f1 Hnd') as (f' & E & Sz & Oth & Set_).
      { intros name' d' Hin Hk. cbn [f1 nc_vars]. unfold set_var. destruct (String.eqb name' name); [discriminate|]. apply (Hf name' d'); cbn; auto. }
      exists f'. split; [exact E|]. cbn [existsb]. unfold has_dim at 1. cbn [snd]. rewrite Ek. cbn [orb]. split; [|split].
      * rewrite Sz. cbn [f1 nc_size]. destruct (existsb _ ds); lia.
      * intros name' Hn. rewrite Oth by (intros d' Hd'; apply Hn; cbn; auto). cbn [f1 nc_vars]. unfold set_var.
        destruct (String.eqb_spec name' name) as [->|]; [|reflexivity]. rewrite (Hn d ltac:(cbn; auto)) in Ek. discriminate.
      * intros name' d' k' v' [[= -> ->]|Hin] Hk Hv.
        -- rewrite Ek in Hk. injection Hk as <-. rewrite Ev in Hv. injection Hv as <-.
           rewrite Oth. { cbn [f1 nc_vars]. unfold set_var. now rewrite String.eqb_refl. }
           intros d2 H2. exfalso. apply Hni. apply in_map_iff. exists (name', d2). auto.
        -- apply Set_; auto. cbn [f1 nc_vars]. unfold set_var. destruct (String.eqb_spec name' name) as [->|]; [|exact Hv].
           exfalso. apply Hni. apply in_map_iff. exists (name, d'). auto.
    + destruct (IH f Hnd') as (f' & E & Sz & Oth & Set_); [intros name' d' Hin; apply (Hf name' d'); cbn; auto|].
      exists f'. split; [exact E|]. cbn [existsb]. unfold has_dim at 1. cbn [snd]. rewrite Ek. cbn [orb]. split; [exact Sz|]. split.
      * intros name' Hn. apply Oth. intros d' Hd'. apply Hn. cbn. auto.
      * intros name' d' k' v' [[= -> ->]|Hin] Hk Hv; [congruence|]. now apply (Set_ name' d' k' v').
Qed.

(** ** C94 *)
(** For every file, every data set whose variables along the dimension are in the file, and any order of its
    variables: every such variable keeps its old values and gets the new ones behind them, at the same position for
    all variables; variables without the dimension, and those not in the data set, do not change. *)
Theorem C94_append dim added f ds :
  NoDup (map fst ds) -> (forall name d, In (name, d) ds -> In dim (d_dims d) -> nc_vars f name <> None) -> (exists name d, In (name, d) ds /\ In dim (d_dims d)) ->
  exists f', append_to_netcdf dim added f ds = OK f' /\ nc_size f' = (nc_size f + added)%nat /\
    (forall name, (forall d, In (name, d) ds -> ~ In dim (d_dims d)) -> nc_vars f' name = nc_vars f name) /\
    (forall name d v, In (name, d) ds -> In dim (d_dims d) -> nc_vars f name = Some v ->
       exists v' k, nc_vars f' name = Some v' /\ v_dims v' = v_dims v /\ v_ref v' = v_ref v /\ nth_error (d_dims d) k = Some dim /\
         (forall i, (nth k i 0 < nc_size f)%nat -> v_data v' i = v_data v i) /\
         (forall i r, (k < List.length i)%nat -> nth k i 0%nat = (nc_size f + r)%nat -> (r < added)%nat -> v_data v' i = encode (v_ref v) (d_data d (replace k r i)))).
Proof.
  intros Hnd Hf (nm & dm & Hin & Hdm).
  assert (Nn : forall d, In dim (d_dims d) <-> index_of dim (d_dims d) <> None) by (intros d; rewrite index_of_none; destruct (in_dec string_dec dim (d_dims d)); tauto).
  destruct (append_variables_spec dim (nc_size f) added ds f Hnd) as (f' & E & Sz & Oth & Set_).
  { intros name d H1 H2. apply (Hf name d H1). now apply Nn. }
  exists f'. split; [exact E|]. split; [|split].
  - rewrite Sz. replace (existsb (has_dim dim) ds) with true; [lia|]. symmetry. apply existsb_exists. exists (nm, dm). split; [exact Hin|].
    unfold has_dim. cbn [snd]. apply Nn in Hdm. destruct (index_of dim (d_dims dm)); congruence.
  - intros name Hn. apply Oth. intros d Hd. apply index_of_none. now apply Hn.
  - intros name d v H1 H2 Hv. apply Nn in H2. destruct (index_of dim (d_dims d)) as [k|] eqn:Ek; [|congruence]. exists (expand_variable v d k (nc_size f) added), k.
    split; [now apply Set_|]. split; [reflexivity|]. split; [reflexivity|]. split; [|split].
    + clear - Ek. revert k Ek. induction (d_dims d) as [|x l IH]; intros k Ek; [discriminate|]. cbn in Ek. destruct (String.eqb_spec x dim) as [->|].
      * injection Ek as <-. reflexivity.
      * destruct (index_of dim l) as [k'|]; [|discriminate]. injection Ek as <-. cbn. now apply IH.
    + intros i Hi. cbn [expand_variable v_data]. replace (Nat.leb (nc_size f) (nth k i 0%nat)) with false; [reflexivity|]. symmetry. apply Nat.leb_gt. exact Hi.
    + intros i r Hk Hi Hr. cbn [expand_variable v_data]. rewrite Hi.
      replace (Nat.leb (nc_size f) (nc_size f + r)) with true by (symmetry; apply Nat.leb_le; lia).
      replace (Nat.ltb (nc_size f + r) (nc_size f + added)) with true by (symmetry; apply Nat.ltb_lt; lia). cbn [andb]. do 3 f_equal. lia.
Qed.

(** ** Files of preprocessing *)
Lemma field_names : NoDup (map fst fields).
Proof. cbn. repeat constructor; cbn; intuition discriminate. Qed.
Lemma field_unique name g g' : In (name, g) contents -> In (name, g') contents -> g = g'.
Proof.
  intros H1 H2. cbn in H1, H2.
  repeat (destruct H1 as [[= <- <-]|H1]; [repeat (destruct H2 as [H2|H2]; [first [injection H2; intros; subst; reflexivity|discriminate]|]); destruct H2|]). destruct H1.
Qed.
(** what is written in addition: variables without time *)
Definition static_ok (static : list (string * dsvar)) : Prop :=
  NoDup (map fst static) /\ (forall name d, In (name, d) static -> ~ In "time"%string (d_dims d) /\ name <> "time"%string /\ forall g, ~ In (name, g) contents).
Lemma dataset_names static t s : static_ok static -> NoDup (map fst (dataset_of static t s)).
Proof.
  intros [H1 H2]. unfold dataset_of. cbn [map fst]. constructor.
  - rewrite map_app, in_app_iff, map_map. intros [H|H].
    + cbn in H. intuition discriminate.
    + apply in_map_iff in H. destruct H as ([n d] & E & Hin). cbn in E. subst n. destruct (H2 _ _ Hin) as (_ & X & _). congruence.
  - rewrite map_app, map_map. cbn [fst]. assert (Q : forall x, In x (map fst fields) -> ~ In x (map fst static)).
    { intros x Hx Hs. apply in_map_iff in Hx. destruct Hx as ([n g] & <- & Hg). apply in_map_iff in Hs. destruct Hs as ([n' d] & E & Hd). cbn in E. subst n'. destruct (H2 _ _ Hd) as (_ & _ & X). exact (X g (proj2 (contents_fields _ _) Hg)). }
    pose proof field_names as F. revert F Q. generalize fields. induction l as [|a l IH]; cbn; intros F Q; [exact H1|].
    inversion F; subst. constructor; [rewrite in_app_iff; intros [X|X]; [contradiction|exact (Q _ (or_introl eq_refl) X)]|]. apply IH; auto.
Qed.
Lemma dataset_time static t s ds : Permutation ds (dataset_of static t s) -> In ("time"%string, mkdsvar ["time"%string] (fun _ => Date t)) ds.
Proof. intros P. apply (Permutation_in _ (Permutation_sym P)). cbn. auto. Qed.
Lemma dataset_field static t s ds name g : Permutation ds (dataset_of static t s) -> In (name, g) contents -> In (name, field_var g s) ds.
Proof.
  intros P H. apply (Permutation_in _ (Permutation_sym P)). right. apply in_or_app. left. apply in_map_iff. exists (name, g). split; [reflexivity|now apply contents_fields].
Qed.
Lemma dataset_inv static t s ds name d : static_ok static -> Permutation ds (dataset_of static t s) -> In (name, d) ds -> In "time"%string (d_dims d) ->
  (name = "time"%string /\ d = mkdsvar ["time"%string] (fun _ => Date t)) \/ exists g, In (name, g) contents /\ d = field_var g s.
Proof.
  intros [_ H2] P H Hd. apply (Permutation_in _ P) in H. destruct H as [[= <- <-]|H]; [auto|]. right. apply in_app_or in H. destruct H as [H|H].
  - apply in_map_iff in H. destruct H as ([n g] & [= <- <-] & Hg). exists g. split; [now apply contents_fields|reflexivity].
  - destruct (H2 _ _ H) as [X _]. contradiction.
Qed.

(** The first time of a day. *)
Theorem C94_new_file ref static t s ds : static_ok static -> Permutation ds (dataset_of static t s) -> whole_seconds ref t ->
  well_formed ref (to_netcdf ref 1 ds) /\ holds (to_netcdf ref 1 ds) [(t, s)].
Proof.
  intros Hs P Ht.
  assert (Nd : NoDup (map fst ds)) by (apply (Permutation_NoDup (l := map fst (dataset_of static t s))); [apply Permutation_map, Permutation_sym, P|now apply dataset_names]).
  assert (Fi : forall name d, In (name, d) ds -> find (fun nv => String.eqb (fst nv) name) ds = Some (name, d)).
  { clear -Nd. induction ds as [|[n d0] ds IH]; intros name d Hin; [destruct Hin|]. cbn [map fst] in Nd. inversion Nd; subst. cbn [find fst].
    destruct Hin as [[= -> ->]|Hin]; [now rewrite String.eqb_refl|]. destruct (String.eqb_spec n name) as [->|]; [exfalso; apply H1; apply in_map_iff; exists (name, d); auto|]. now apply IH. }
  assert (Ft : forall name g, In (name, g) contents -> String.eqb name "time" = false).
  { intros name g H. cbn in H. repeat (destruct H as [[= <- _]|H]; [reflexivity|]). destruct H. }
  split; [split|split].
  - eexists. split; [cbn [to_netcdf nc_vars]; rewrite (Fi _ _ (dataset_time static t s ds P)); reflexivity|]. split; reflexivity.
  - intros name g Hg. eexists. split; [cbn [to_netcdf nc_vars]; rewrite (Fi _ _ (dataset_field static t s ds name g P Hg)); reflexivity|]. split; [reflexivity|].
    cbn [v_ref]. now rewrite (Ft name g Hg).
  - reflexivity.
  - intros [|r] t' s' E; [|destruct r; discriminate]. injection E as <- <-. split.
    + unfold read_time. cbn [to_netcdf nc_vars]. rewrite (Fi _ _ (dataset_time static t s ds P)). cbn [v_data v_ref].
      replace (String.eqb "time" "time") with true by reflexivity. cbn [d_data d_dims index_of String.eqb Ascii.eqb Bool.eqb nth Nat.ltb Nat.leb]. destruct (encode_date ref t Ht) as [-> E]. f_equal. exact E.
    + intros name g i j Hg. unfold read_field. cbn [to_netcdf nc_vars]. rewrite (Fi _ _ (dataset_field static t s ds name g P Hg)). reflexivity.
Qed.
(** Every further time: the file holds one record more and is otherwise unchanged. *)
Theorem C94_append_keeps_records ref static t s ds f l : static_ok static -> Permutation ds (dataset_of static t s) -> whole_seconds ref t ->
  well_formed ref f -> holds f l ->
  exists f', append_to_netcdf "time" 1 f ds = OK f' /\ well_formed ref f' /\ holds f' (l ++ [(t, s)]) /\
    forall name, name <> "time"%string -> (forall g, ~ In (name, g) contents) -> nc_vars f' name = nc_vars f name.
Proof.
  intros Hs P Ht [(vt & Et & Dt & Rt) Wf] [Sz Hl].
  assert (Nd : NoDup (map fst ds)) by (apply (Permutation_NoDup (l := map fst (dataset_of static t s))); [apply Permutation_map, Permutation_sym, P|now apply dataset_names]).
  destruct (C94_append "time" 1 f ds Nd) as (f' & E & Sz' & Oth & Set_).
  - intros name d Hin Hd. destruct (dataset_inv static t s ds name d Hs P Hin Hd) as [[-> _]|(g & Hg & _)]; [congruence|]. destruct (Wf name g Hg) as (v & -> & _). discriminate.
  - exists "time"%string. eexists. split; [exact (dataset_time static t s ds P)|cbn; auto].
  - destruct (Set_ _ _ vt (dataset_time static t s ds P) (or_introl eq_refl) Et) as (vt' & k & Et' & Dt' & Rt' & Hk & Old & New).
    cbn [d_dims] in Hk. destruct k as [|[|k]]; try discriminate.
    assert (Fl : forall name g, In (name, g) contents -> exists v v', nc_vars f name = Some v /\ nc_vars f' name = Some v' /\ v_dims v' = field_dims /\ v_ref v' = None /\
       (forall i, (nth 0 i 0 < nc_size f)%nat -> v_data v' i = v_data v i) /\ forall i j, v_data v' [nc_size f; i; j] = Value (at_ (g s) i j)).
    { intros name g Hg. destruct (Wf name g Hg) as (v & Ev & Dv & Rv). destruct (Set_ _ _ v (dataset_field static t s ds name g P Hg) (or_introl eq_refl) Ev) as (v' & k & Ev' & Dv' & Rv' & Hk' & O & Nw).
      cbn [d_dims field_var] in Hk'. destruct k as [|[|[|[|k]]]]; try discriminate. exists v, v'. rewrite Dv', Rv'. repeat split; auto.
      intros i j. rewrite (Nw _ 0%nat) by (cbn; lia). reflexivity. }
    exists f'. split; [exact E|]. split; [|split; [split|]].
    + split; [exists vt'; rewrite Dt', Rt'; auto|]. intros name g Hg. destruct (Fl name g Hg) as (v & v' & _ & E' & D' & R' & _). exists v'. auto.
    + rewrite Sz', app_length, Sz. cbn. lia.
    + intros r t' s' Er. assert (Hr : (r < List.length l \/ r = List.length l)%nat).
      { assert (r < List.length (l ++ [(t, s)]))%nat by (apply nth_error_Some; congruence). rewrite app_length in H. cbn in H. lia. }
      destruct Hr as [Hr| ->].
      * rewrite nth_error_app1 in Er by exact Hr. destruct (Hl r t' s' Er) as [H1 H2]. split.
        -- unfold read_time in *. rewrite Et'. rewrite Et in H1. rewrite Rt', Old by (cbn; lia). exact H1.
        -- intros name g i j Hg. specialize (H2 name g i j Hg). destruct (Fl name g Hg) as (v & v' & Ev & Ev' & _ & _ & O & _). unfold read_field in *. rewrite Ev'. rewrite Ev in H2. rewrite O by (cbn; lia). exact H2.
      * rewrite nth_error_app2, Nat.sub_diag in Er by lia. injection Er as <- <-. split.
        -- unfold read_time. rewrite Et', Rt', Rt. rewrite (New _ 0%nat) by (cbn; lia). rewrite Rt. cbn [d_data]. destruct (encode_date ref t Ht) as [-> E1]. f_equal. exact E1.
        -- intros name g i j Hg. destruct (Fl name g Hg) as (v & v' & _ & Ev' & _ & _ & _ & Nw). unfold read_field. rewrite Ev', <- Sz. apply Nw.
    + intros name Hn Hg. apply Oth. intros d Hin Hd. destruct (dataset_inv static t s ds name d Hs P Hin Hd) as [[-> _]|(g & Hin' & _)]; [congruence|]. exact (Hg g Hin').
Qed.

(** ** All of preprocessing on netCDF files *)
(** [data] as in Prep.v; [order] is the order of the variables of the data set of a time *)
Definition nc_folder := string -> option nc.
Definition nc_act (ref : Z) (order : Z -> list (string * dsvar)) (a : action) (fs : nc_folder) : res nc_folder :=
  do f <- match a with
          | Create _ t => OK (to_netcdf ref 1 (order t))
          | Append n t => match fs n with Some f => append_to_netcdf "time" 1 f (order t) | None => Err FileNotFoundError end
          end;
  OK (fun name => if String.eqb name (target a) then Some f else fs name).
Fixpoint nc_acts ref order (l : list action) (fs : nc_folder) : res nc_folder :=
  match l with [] => OK fs | a :: l => do fs <- nc_act ref order a fs; nc_acts ref order l fs end.
Definition action_time (a : action) : Z := match a with Create _ t | Append _ t => t end.
(** the folder of netCDF files holds the files of the abstract folder *)
Definition folder_holds (ref : Z) (nfs : nc_folder) (fs : folder N) : Prop :=
  forall name, match fs name, nfs name with Some l, Some f => well_formed ref f /\ holds f l | None, None => True | _, _ => False end.
Lemma act_refined ref order static data a fs fs' nfs : static_ok static -> (Permutation (order (action_time a)) (dataset_of static (action_time a) (data (action_time a)))) ->
  whole_seconds ref (action_time a) -> folder_holds ref nfs fs -> act data a fs = OK fs' ->
  exists nfs', nc_act ref order a nfs = OK nfs' /\ folder_holds ref nfs' fs'.
Proof.
  intros Hs P Ht R E. unfold act in E. destruct a as [n t|n t]; cbn [act_file bind action_time target nc_act] in *.
  - injection E as <-. unfold nc_act. cbn [bind target]. eexists. split; [reflexivity|]. intros name. cbn. destruct (String.eqb name n); [|apply R]. now apply (C94_new_file ref static).
  - unfold nc_act. cbn [target]. pose proof (R n) as Rn. destruct (fs n) as [l|]; [|discriminate]. cbn [bind] in E. injection E as <-. destruct (nfs n) as [f|]; [|contradiction].
    destruct Rn as [Wf Hl]. destruct (C94_append_keeps_records ref static t (data t) (order t) f l Hs P Ht Wf Hl) as (f' & -> & Wf' & Hl' & _). cbn [bind].
    eexists. split; [reflexivity|]. intros name. cbn. destruct (String.eqb name n); [auto|apply R].
Qed.
(** Preprocessing on netCDF files, from any folder and with any schedule of the workers and any order of the
    variables, leaves files that hold what the abstract model of C53 says. *)
Theorem C94_preprocessing_refined ref order static data l : forall fs fs' nfs, static_ok static ->
  (forall a, In a l -> Permutation (order (action_time a)) (dataset_of static (action_time a) (data (action_time a))) /\ whole_seconds ref (action_time a)) ->
  folder_holds ref nfs fs -> acts data l fs = OK fs' ->
  exists nfs', nc_acts ref order l nfs = OK nfs' /\ folder_holds ref nfs' fs'.
Proof.
  induction l as [|a l IH]; intros fs fs' nfs Hs Ho R E; cbn [acts nc_acts] in *.
  - injection E as <-. exists nfs. auto.
  - destruct (act data a fs) as [fs1|] eqn:E1; [|discriminate]. cbn [bind] in E.
    destruct (Ho a ltac:(cbn; auto)) as [P Ht]. destruct (act_refined ref order static data a fs fs1 nfs Hs P Ht R E1) as (nfs1 & -> & R1). cbn [bind].
    apply (IH fs1 fs' nfs1 Hs); auto. intros b Hb. apply Ho. cbn. auto.
Qed.

(** ** C95: a crash while appending *)
Lemma nodup_app_l {A} (l m : list A) : NoDup (l ++ m) -> NoDup l.
Proof. induction l as [|a l IH]; cbn; intros H; [constructor|]. inversion H; subst. constructor; [rewrite in_app_iff in *; tauto|auto]. Qed.
Lemma nodup_app_r {A} (l m : list A) : NoDup (l ++ m) -> NoDup m.
Proof. induction l as [|a l IH]; cbn; intros H; [exact H|]. inversion H; subst. auto. Qed.
(** The variables are written one after the other.  After a crash between two of them, the records that were in the
    file are still there. *)
Theorem C95_old_records_survive_partial ref static t s written rest f l : static_ok static -> Permutation (written ++ rest) (dataset_of static t s) ->
  well_formed ref f -> holds f l ->
  exists f', append_variables "time" (nc_size f) 1 f written = OK f' /\
    forall r t' s', nth_error l r = Some (t', s') -> read_time f' r = Some t' /\ forall name g i j, In (name, g) contents -> read_field f' name r i j = Value (at_ (g s') i j).
Proof.
  intros Hs P [(vt & Et & Dt & Rt) Wf] [Sz Hl].
  assert (Nd : NoDup (map fst (written ++ rest))) by (apply (Permutation_NoDup (l := map fst (dataset_of static t s))); [apply Permutation_map, Permutation_sym, P|now apply dataset_names]).
  rewrite map_app in Nd. apply nodup_app_l in Nd.
  assert (Inv : forall name d, In (name, d) written -> In "time"%string (d_dims d) -> (name = "time"%string /\ d = mkdsvar ["time"%string] (fun _ => Date t)) \/ exists g, In (name, g) contents /\ d = field_var g s).
  { intros name d Hin Hd. apply (dataset_inv static t s (written ++ rest)); auto. apply in_or_app. auto. }
  destruct (append_variables_spec "time" (nc_size f) 1 written f Nd) as (f' & E & _ & Oth & Set_).
  { intros name d Hin Hd. assert (Hd' : In "time"%string (d_dims d)) by (destruct (in_dec string_dec "time" (d_dims d)) as [H|H]; [exact H|apply index_of_none in H; contradiction]).
    destruct (Inv name d Hin Hd') as [[-> _]|(g & Hg & _)]; [congruence|]. destruct (Wf name g Hg) as (v & -> & _). discriminate. }
  exists f'. split; [exact E|].
  assert (Keep : forall name v, nc_vars f name = Some v -> (name = "time"%string \/ exists g, In (name, g) contents) -> exists v', nc_vars f' name = Some v' /\ v_ref v' = v_ref v /\ forall i, (nth 0 i 0 < nc_size f)%nat -> v_data v' i = v_data v i).
  { intros name v Ev _. destruct (find (fun nv => String.eqb (fst nv) name && has_dim "time" nv)%bool written) as [[n d]|] eqn:Fd.
    - apply find_some in Fd. destruct Fd as [Hin Hb]. apply andb_prop in Hb. destruct Hb as [Hn Hb]. apply String.eqb_eq in Hn. cbn in Hn. subst n. unfold has_dim in Hb. cbn [snd] in Hb.
      destruct (index_of "time" (d_dims d)) as [k|] eqn:Ek; [|discriminate].
      assert (k = 0%nat). { destruct (Inv name d Hin) as [[-> ->]|(g & _ & ->)]; [|cbn in Ek; congruence|cbn in Ek; congruence]. destruct (in_dec string_dec "time" (d_dims d)) as [H|H]; [exact H|apply index_of_none in H; congruence]. }
      subst k. exists (expand_variable v d 0 (nc_size f) 1). split; [now apply Set_|]. split; [reflexivity|]. intros i Hi. cbn [expand_variable v_data].
      replace (Nat.leb (nc_size f) (nth 0 i 0%nat)) with false; [reflexivity|]. symmetry. now apply Nat.leb_gt.
    - exists v. split; [|split; auto]. rewrite Oth; [exact Ev|]. intros d Hin. destruct (index_of "time" (d_dims d)) as [k|] eqn:Ek; [|reflexivity].
      exfalso. pose proof (find_none _ _ Fd (name, d) Hin) as Q. cbn [fst] in Q. rewrite String.eqb_refl in Q. unfold has_dim in Q. cbn [snd] in Q. rewrite Ek in Q. discriminate. }
  intros r t' s' Er. assert (Hr : (r < nc_size f)%nat) by (rewrite Sz; apply nth_error_Some; congruence). destruct (Hl r t' s' Er) as [H1 H2]. split.
  - destruct (Keep "time"%string vt Et (or_introl eq_refl)) as (v' & E' & R' & O). unfold read_time in *. rewrite E', R'. rewrite Et in H1. rewrite O by exact Hr. exact H1.
  - intros name g i j Hg. specialize (H2 name g i j Hg). destruct (Wf name g Hg) as (v & Ev & _). destruct (Keep name v Ev (or_intror (ex_intro _ g Hg))) as (v' & E' & _ & O).
    unfold read_field in *. rewrite E'. rewrite Ev in H2. rewrite O by exact Hr. exact H2.
Qed.
(** But a record that a reader can see need not be complete: if the time was written and a field was not, the file
    shows the new time, with nothing (nan) in that field.  (Nothing is stored behind the end of a file.) *)
Definition nothing_behind (f : nc) : Prop := forall name g r i j, In (name, g) contents -> (nc_size f <= r)%nat -> read_field f name r i j = Fill.
Theorem C95_incomplete_record_refuted ref static t s written rest f l name g : static_ok static -> Permutation (written ++ rest) (dataset_of static t s) -> whole_seconds ref t ->
  well_formed ref f -> holds f l -> nothing_behind f -> In "time"%string (map fst written) -> In (name, g) contents -> In name (map fst rest) ->
  exists f', append_variables "time" (nc_size f) 1 f written = OK f' /\ nc_size f' = S (List.length l) /\ read_time f' (List.length l) = Some t /\
    forall i j, read_field f' name (List.length l) i j = Fill.
Proof.
  intros Hs P Ht [(vt & Et & Dt & Rt) Wf] [Sz Hl] Nb Hw Hg Hr.
  assert (Nd0 : NoDup (map fst (written ++ rest))) by (apply (Permutation_NoDup (l := map fst (dataset_of static t s))); [apply Permutation_map, Permutation_sym, P|now apply dataset_names]).
  pose proof Nd0 as Nd. rewrite map_app in Nd. apply nodup_app_l in Nd.
  assert (Inv : forall name d, In (name, d) written -> In "time"%string (d_dims d) -> (name = "time"%string /\ d = mkdsvar ["time"%string] (fun _ => Date t)) \/ exists g, In (name, g) contents /\ d = field_var g s).
  { intros n d Hin Hd. apply (dataset_inv static t s (written ++ rest)); auto. apply in_or_app. auto. }
  destruct (append_variables_spec "time" (nc_size f) 1 written f Nd) as (f' & E & Sz' & Oth & Set_).
  { intros n d Hin Hd. assert (Hd' : In "time"%string (d_dims d)) by (destruct (in_dec string_dec "time" (d_dims d)) as [H|H]; [exact H|apply index_of_none in H; contradiction]).
    destruct (Inv n d Hin Hd') as [[-> _]|(g' & Hg' & _)]; [congruence|]. destruct (Wf n g' Hg') as (v & -> & _). discriminate. }
  apply in_map_iff in Hw. destruct Hw as ([n d] & En & Hin). cbn in En. subst n.
  assert (d = mkdsvar ["time"%string] (fun _ => Date t)) as ->.
  { assert (In ("time"%string, d) (dataset_of static t s)) as Hi by (apply (Permutation_in _ P); apply in_or_app; auto).
    destruct Hi as [[= <-]|Hi]; [reflexivity|]. exfalso. apply in_app_or in Hi. destruct Hi as [Hi|Hi].
    - apply in_map_iff in Hi. destruct Hi as ([n g'] & [= En _] & Hi). subst n. cbn in Hi. intuition discriminate.
    - destruct Hs as [_ Hs]. destruct (Hs _ _ Hi) as (_ & X & _). congruence. }
  exists f'. split; [exact E|]. split; [|split].
  - rewrite Sz'. replace (existsb (has_dim "time") written) with true; [lia|]. symmetry. apply existsb_exists. eexists. split; [exact Hin|reflexivity].
  - unfold read_time. rewrite (Set_ _ _ 0%nat vt Hin eq_refl Et). cbn [expand_variable v_data v_ref nth]. rewrite Sz, Nat.leb_refl. replace (Nat.ltb (List.length l) (List.length l + 1)) with true by (symmetry; apply Nat.ltb_lt; lia).
    cbn [andb d_data]. rewrite Rt. destruct (encode_date ref t Ht) as [-> E1]. f_equal. exact E1.
  - intros i j. unfold read_field. rewrite Oth.
    + apply (Nb name g); [exact Hg|lia].
    + intros d Hd. exfalso. apply in_split in Hd. destruct Hd as (w1 & w2 & ->). rewrite <- app_assoc, map_app in Nd0. apply nodup_app_r in Nd0. cbn in Nd0. inversion Nd0; subst. apply H1. rewrite map_app. apply in_or_app. auto.
Qed.
(** Nothing is stored behind the end of the files that preprocessing writes. *)
Lemma new_nothing_behind ref static t s ds : static_ok static -> Permutation ds (dataset_of static t s) -> nothing_behind (to_netcdf ref 1 ds).
Proof.
  intros Hs P name g r i j Hg Hr. cbn [to_netcdf nc_size] in Hr. unfold read_field. cbn [to_netcdf nc_vars].
  assert (Nd : NoDup (map fst ds)) by (apply (Permutation_NoDup (l := map fst (dataset_of static t s))); [apply Permutation_map, Permutation_sym, P|now apply dataset_names]).
  destruct (find (fun nv => fst nv =? name) ds) as [[n d]|] eqn:Fd; [|reflexivity]. apply find_some in Fd. destruct Fd as [Hin Hn]. cbn in Hn. apply String.eqb_eq in Hn. subst n.
  assert (d = field_var g s) as ->.
  { pose proof (dataset_field static t s ds name g P Hg) as Hf. clear - Nd Hin Hf. induction ds as [|[n x] ds IH]; [destruct Hin|]. cbn in Nd. inversion Nd; subst.
    destruct Hin as [[= -> ->]|Hin]; destruct Hf as [Hf|Hf]; auto; [injection Hf as ->; reflexivity| |]; exfalso.
    - apply H1. apply in_map_iff. eexists. split; [|exact Hf]. reflexivity.
    - injection Hf as -> ->. apply H1. apply in_map_iff. eexists. split; [|exact Hin]. reflexivity. }
  cbn [v_data field_var d_dims field_dims index_of String.eqb Ascii.eqb Bool.eqb nth]. replace (Nat.ltb r 1) with false; [reflexivity|]. symmetry. apply Nat.ltb_ge. exact Hr.
Qed.
Lemma append_nothing_behind ref static t s ds f f' : static_ok static -> Permutation ds (dataset_of static t s) -> well_formed ref f -> nothing_behind f ->
  append_to_netcdf "time" 1 f ds = OK f' -> nothing_behind f'.
Proof.
  intros Hs P [(vt & Et & _) Wf] Nb E name g r i j Hg Hr.
  assert (Nd : NoDup (map fst ds)) by (apply (Permutation_NoDup (l := map fst (dataset_of static t s))); [apply Permutation_map, Permutation_sym, P|now apply dataset_names]).
  destruct (append_variables_spec "time" (nc_size f) 1 ds f Nd) as (f1 & E1 & Sz & _ & Set_).
  { intros n d Hin Hd. assert (Hd' : In "time"%string (d_dims d)) by (destruct (in_dec string_dec "time" (d_dims d)) as [H|H]; [exact H|apply index_of_none in H; contradiction]).
    destruct (dataset_inv static t s ds n d Hs P Hin Hd') as [[-> _]|(g' & Hg' & _)]; [congruence|]. destruct (Wf n g' Hg') as (v & -> & _). discriminate. }
  unfold append_to_netcdf in E. rewrite E1 in E. injection E as <-.
  assert (Hr' : (nc_size f + 1 <= r)%nat).
  { rewrite Sz in Hr. replace (existsb (has_dim "time") ds) with true in Hr; [lia|]. symmetry. apply existsb_exists. eexists. split; [exact (dataset_time static t s ds P)|reflexivity]. }
  pose proof (Nb name g r i j Hg ltac:(lia)) as Old. destruct (Wf name g Hg) as (v & Ev & _).
  unfold read_field in *. rewrite Ev in Old. rewrite (Set_ _ _ 0%nat v (dataset_field static t s ds name g P Hg) eq_refl Ev). cbn [expand_variable v_data nth].
  replace (Nat.ltb r (nc_size f + 1)) with false by (symmetry; apply Nat.ltb_ge; lia). rewrite andb_false_r. exact Old.
Qed.

(** ** Together with C53: the files of a preprocessing run *)
Lemma schedule_in ws l : schedule ws l -> forall a, In a l -> exists w, In w ws /\ In a w.
Proof.
  induction 1 as [ws Hd|before b w after l Hs IH]; intros a Ha; [destruct Ha|]. destruct Ha as [<-|Ha].
  - exists (b :: w). split; [apply in_or_app; right; now left|now left].
  - destruct (IH a Ha) as (w' & Hw & Hin). apply in_app_or in Hw. destruct Hw as [Hw|[<-|Hw]].
    + exists w'. split; [apply in_or_app; auto|exact Hin].
    + exists (b :: w). split; [apply in_or_app; right; now left|now right].
    + exists w'. split; [apply in_or_app; right; now right|exact Hin].
Qed.
Lemma worker_times c a w : In w (workers c) -> In a w -> In (action_time a) (input_dates c).
Proof.
  unfold workers. intros Hw Ha. apply in_map_iff in Hw. destruct Hw as (g & <- & Hg). unfold day_groups in Hg. apply in_map_iff in Hg. destruct Hg as (k & <- & _).
  set (l := filter _ _) in Ha. assert (G : forall t, In t l -> In t (input_dates c)) by (intros t Ht; apply filter_In in Ht; tauto).
  destruct l as [|t l']; [destruct Ha|]. destruct Ha as [<-|Ha]; cbn; [apply G; now left|]. apply in_map_iff in Ha. destruct Ha as (t' & <- & Ht'). apply G. now right.
Qed.
(** Preprocessing succeeds, with any schedule of the workers and whatever (readable) files were in the folder; for
    every time there is the file of its day with the times of that day in order, each with all its fields. *)
Theorem C94_netcdf_files ref order static data c l fs nfs : prep_dated c -> schedule (workers c) l -> static_ok static -> (1000000 | ref)%Z ->
  (forall t, In t (input_dates c) -> Permutation (order t) (dataset_of static t (data t))) -> folder_holds ref nfs fs ->
  exists nfs', nc_acts ref order l nfs = OK nfs' /\
    forall t, In t (input_dates c) -> exists f, nfs' (input_path (pc_cal c) (pc_dir c) t) = Some f /\ well_formed ref f /\
      holds f (map (fun t' => (t', data t')) (filter (fun t' => Z.eqb (t' / (24 * 60 * 60 * 1000000)) (t / (24 * 60 * 60 * 1000000))) (input_dates c))).
Proof.
  intros Hd Hl Hs [kr Hr] Ho R. destruct (C53_day_files_complete_any_schedule data c fs l Hd Hl) as (fs' & E & [P _]).
  destruct (C94_preprocessing_refined ref order static data l fs fs' nfs Hs) as (nfs' & E' & R').
  - intros a Ha. destruct (schedule_in _ _ Hl a Ha) as (w & Hw & Hin). pose proof (worker_times c a w Hw Hin) as Ht. split; [now apply Ho|].
    destruct (C53_input_times_rounded c _ Ht) as (_ & _ & [k Hk] & _). exists (k * 60 - kr)%Z. rewrite Hk, Hr. ring.
  - exact R.
  - exact E.
  - exists nfs'. split; [exact E'|]. intros t Ht. specialize (R' (input_path (pc_cal c) (pc_dir c) t)). rewrite (P t Ht) in R'.
    destruct (nfs' (input_path (pc_cal c) (pc_dir c) t)) as [f|]; [|contradiction]. exists f. split; [reflexivity|exact R'].
Qed.
End Append.

(** ** The hypotheses can be met *)
Definition C94_static {N : NumOps} : list (string * @dsvar N) :=
  [("latitude", mkdsvar ["latitude"] (fun _ => Number n0)); ("longitude", mkdsvar ["longitude"] (fun _ => Number n1));
   ("latitude_bounds", mkdsvar ["latitude"; "bounds"] (fun _ => Number n0)); ("longitude_bounds", mkdsvar ["longitude"; "bounds"] (fun _ => Number n1))]%string.
(** 1900-01-01 *)
Definition C94_ref : Z := (-25567 * 86400 * 1000000)%Z.
Example C94_static_ok {N : NumOps} : @static_ok N C94_static.
Proof.
  split; [cbn; repeat constructor; cbn; intuition discriminate|]. intros name d H. cbn in H.
  repeat (destruct H as [[= <- <-]|H]; [split; [|split]; [cbn; intuition discriminate|discriminate|intros g Hg; cbn in Hg; intuition discriminate]|]). destruct H.
Qed.
(** any day, hourly data, empty folder: the hypotheses of [C94_netcdf_files] hold *)
Example C94_case {N : NumOps} (data : Z -> slice N) :
  let c := mkprepcfg 0 (23 * 3600 * 1000000) (3600 * 1000000) Standard "in" in
  List.length (input_dates c) = 24%nat /\ prep_dated c /\ (exists l, schedule (workers c) l) /\ (1000000 | C94_ref)%Z /\
  (forall t, In t (input_dates c) -> Permutation (dataset_of C94_static t (data t)) (dataset_of C94_static t (data t))) /\ folder_holds C94_ref (fun _ => None) (fun _ => @None (ncfile N)).
Proof.
  cbv zeta. split; [reflexivity|]. split; [|split; [|split; [|split]]].
  - intros t Ht. vm_compute in Ht. repeat (destruct Ht as [<-|Ht]; [exists 1970%Z, 1%Z, 1%Z; split; [unfold date_of, day_of; cbn [pc_cal]; rewrite civil_eq, epoch_eq; vm_compute; reflexivity|discriminate]|]). destruct Ht.
  - eexists. apply sequential_is_schedule.
  - exists (-25567 * 86400)%Z. reflexivity.
  - intros t Ht. apply Permutation_refl.
  - intros name. exact I.
Qed.
(** a crash after the time, before the last field, with any data: the hypotheses of [C95_incomplete_record_refuted] *)
Example C95_case {N : NumOps} (s0 s1 : slice N) :
  let f := to_netcdf C94_ref 1 (dataset_of C94_static 0 s0) in let ds := dataset_of C94_static 3600000000 s1 in
  let written := firstn 8 ds in let rest := skipn 8 ds in
  @static_ok N C94_static /\ Permutation (written ++ rest) ds /\ whole_seconds C94_ref 3600000000 /\ well_formed C94_ref f /\ holds f [(0%Z, s0)] /\ nothing_behind f /\
  In "time"%string (map fst written) /\ (exists g : slice N -> arr N, In ("precip"%string, g) contents) /\ In "precip"%string (map fst rest).
Proof.
  cbv zeta. assert (W0 : whole_seconds C94_ref 0) by (exists (25567 * 86400)%Z; reflexivity).
  destruct (C94_new_file C94_ref C94_static 0 s0 _ C94_static_ok (Permutation_refl _) W0) as [Wf Hl].
  split; [apply C94_static_ok|]. split; [rewrite firstn_skipn; apply Permutation_refl|]. split; [exists (25567 * 86400 + 3600)%Z; reflexivity|].
  split; [exact Wf|]. split; [exact Hl|]. split; [apply (new_nothing_behind C94_ref C94_static 0 s0); [apply C94_static_ok|apply Permutation_refl]|].
  split; [cbn; auto|]. split; [eexists; cbn; do 6 right; left; reflexivity|cbn; auto].
Qed.
