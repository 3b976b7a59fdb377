(** * C58: validation of the input of the preprocessing
    preprocessing/input_validation.py l.12-73. *)
From Coq Require Import Reals Lia Arith List Bool String.
From Verif Require Import Num Arr.
Import ListNotations.
Local Open Scope string_scope.
Local Open Scope list_scope.

(** ** Model *)
Inductive level_type := model_levels | pressure_levels.     (* config.py l.373 *)
Record variable := mkvar { v_dims : list string; v_values : list XR }.
(** an xr.Dataset: its dimensions and its data variables (xr.Dataset.data_vars is a mapping) *)
Record input := mkinput { in_dims : list string; in_vars : list (string * variable) }.
Inductive outcome := Accepted | ValidationError.
Definition mem (s : string) (l : list string) : bool := existsb (String.eqb s) l.
Fixpoint get (s : string) (l : list (string * variable)) : option variable :=
  match l with [] => None | (n, v) :: l => if String.eqb n s then Some v else get s l end.
(** set(a) == set(b) *)
Definition set_eq (a b : list string) : bool := forallb (fun s => mem s b) a && forallb (fun s => mem s a) b.
(** l.20-28 *)
Definition validate_dims (d : input) : outcome :=
  if forallb (fun s => mem s (in_dims d)) ["latitude"; "longitude"; "level"] then Accepted else ValidationError.
(** l.31-65.  The loops raise at the first offending variable. *)
Definition expected_level_vars (t : level_type) : list string :=
  ["q"; "u"; "v"] ++ match t with model_levels => ["dp"] | pressure_levels => [] end.
Definition expected_surface_vars (t : level_type) : list string :=
  ["ps"; "precip"; "evap"] ++ match t with pressure_levels => ["qs"; "us"; "vs"] | model_levels => [] end.
Fixpoint check_dims (expected : list string) (vars : list string) (d : input) : outcome :=
  match vars with
  | [] => Accepted
  | s :: vars => match get s (in_vars d) with
                 | Some v => if set_eq (v_dims v) expected then check_dims expected vars d else ValidationError
                 | None => ValidationError
                 end
  end.
Definition validate_vars (d : input) (t : level_type) : outcome :=
  let present s := match get s (in_vars d) with Some _ => true | None => false end in
  if negb (forallb present (expected_level_vars t ++ expected_surface_vars t)) then ValidationError else
  match check_dims ["latitude"; "longitude"] (expected_surface_vars t) d with
  | ValidationError => ValidationError
  | Accepted => check_dims ["level"; "latitude"; "longitude"] (expected_level_vars t) d
  end.
(** l.68-73 *)
Fixpoint check_nans (vars : list (string * variable)) : outcome :=
  match vars with
  | [] => Accepted
  | (_, v) :: vars => if existsb (nisnan (N := XRnum)) (v_values v) then ValidationError else check_nans vars
  end.
(** l.12-17 *)
Definition validate_input (d : input) (t : level_type) : outcome :=
  match validate_dims d with
  | ValidationError => ValidationError
  | Accepted => match validate_vars d t with ValidationError => ValidationError | Accepted => check_nans (in_vars d) end
  end.

(** ** Specification *)
(** what the preprocessing needs *)
Definition required (t : level_type) : list (string * list string) :=
  let surface := ["latitude"; "longitude"] in let columns := ["level"; "latitude"; "longitude"] in
  match t with
  | pressure_levels => [("q", columns); ("u", columns); ("v", columns); ("ps", surface); ("precip", surface); ("evap", surface); ("qs", surface); ("us", surface); ("vs", surface)]
  | model_levels => [("q", columns); ("u", columns); ("v", columns); ("dp", columns); ("ps", surface); ("precip", surface); ("evap", surface)]
  end.
Definition has_dims (v : variable) (dims : list string) : Prop := forall s, In s (v_dims v) <-> In s dims.
Definition complete (d : input) (t : level_type) : Prop :=
  (forall s, In s ["latitude"; "longitude"; "level"] -> In s (in_dims d)) /\
  (forall name dims, In (name, dims) (required t) -> exists v, In (name, v) (in_vars d) /\ has_dims v dims) /\
  (forall name v, In (name, v) (in_vars d) -> ~ In NaN (v_values v)).

(** ** Proof *)
Lemma mem_iff s l : mem s l = true <-> In s l.
Proof.
  unfold mem. rewrite existsb_exists. split; [intros (x & Hx & E); apply String.eqb_eq in E; congruence|intros H; exists s; split; [exact H|apply String.eqb_refl]].
Qed.
Lemma set_eq_iff a b : set_eq a b = true <-> forall s, In s a <-> In s b.
Proof.
  unfold set_eq. rewrite andb_true_iff, !forallb_forall. split.
  - intros [H1 H2] s. split; intros H; [specialize (H1 s H)|specialize (H2 s H)]; now apply mem_iff.
  - intros H. split; intros s Hs; apply mem_iff, H, Hs.
Qed.
Lemma get_in s l v : get s l = Some v -> In (s, v) l.
Proof. induction l as [|[n w] l IH]; cbn; [discriminate|]. destruct (String.eqb_spec n s) as [->|]; [intros [= ->]; now left|intros H; right; auto]. Qed.
Lemma in_get s l v : NoDup (map fst l) -> In (s, v) l -> get s l = Some v.
Proof.
  induction l as [|[n w] l IH]; cbn; [tauto|]. intros N [[= -> ->]|H].
  - now rewrite String.eqb_refl.
  - inversion N; subst. destruct (String.eqb_spec n s) as [->|]; [exfalso; apply H2; apply in_map_iff; now exists (s, v)|auto].
Qed.
Lemma check_dims_iff expected vars d : NoDup (map fst (in_vars d)) ->
  check_dims expected vars d = Accepted <-> forall s, In s vars -> exists v, In (s, v) (in_vars d) /\ has_dims v expected.
Proof.
  intros N. induction vars as [|s vars IH]; cbn [check_dims]; [cbn; split; [tauto|auto]|]. split.
  - destruct (get s (in_vars d)) as [v|] eqn:G; [|discriminate]. destruct (set_eq _ _) eqn:E; [|discriminate]. intros H s' [<-|Hs]; [|now apply IH].
    exists v. split; [now apply get_in|]. exact (proj1 (set_eq_iff _ _) E).
  - intros H. destruct (H s (or_introl eq_refl)) as (v & Hv & Hd). rewrite (in_get _ _ _ N Hv). rewrite (proj2 (set_eq_iff _ _) Hd). apply IH. intros s' Hs. apply H. now right.
Qed.
Lemma isnan_iff x : nisnan (N := XRnum) x = true <-> x = NaN.
Proof.
  unfold nisnan. cbn. destruct x as [r|b|]; cbn.
  - unfold Reqb. destruct (Req_EM_T r r) as [|C]; [split; discriminate|exfalso; auto].
  - rewrite Bool.eqb_reflx. split; discriminate.
  - tauto.
Qed.
Lemma check_nans_iff l : check_nans l = Accepted <-> forall name v, In (name, v) l -> ~ In NaN (v_values v).
Proof.
  induction l as [|[n v] l IH]; cbn [check_nans]; [split; [intros _ ? ? []|reflexivity]|].
  destruct (existsb (nisnan (N := XRnum)) (v_values v)) eqn:E.
  - split; [discriminate|]. intros H. apply existsb_exists in E as (x & Hx & Hn). apply isnan_iff in Hn. subst x. exfalso. eapply H; [now left|exact Hx].
  - rewrite IH. split.
    + intros H name w [[= <- <-]|Hw]; [|eapply H; eauto]. intros C. assert (existsb (nisnan (N := XRnum)) (v_values v) = true); [|congruence].
      apply existsb_exists. exists NaN. split; [exact C|now apply isnan_iff].
    + intros H name w Hw. eapply H. right. exact Hw.
Qed.
(** The validation accepts exactly the complete data (the names of data variables are distinct, as in any
    mapping; dimensions may come in any order; a NaN in any variable, also one that is not used, rejects). *)
Theorem C58_accepts_exactly_complete_data d t : NoDup (map fst (in_vars d)) ->
  validate_input d t = Accepted <-> complete d t.
Proof.
  intros N. unfold validate_input, complete, validate_dims.
  destruct (forallb (fun s => mem s (in_dims d)) ["latitude"; "longitude"; "level"]) eqn:E1.
  2: { split; [discriminate|]. intros (H & _). exfalso. assert (forallb (fun s => mem s (in_dims d)) ["latitude"; "longitude"; "level"] = true); [|congruence].
       apply forallb_forall. intros s Hs. apply mem_iff. auto. }
  rewrite forallb_forall in E1. assert (D : forall s, In s ["latitude"; "longitude"; "level"] -> In s (in_dims d)) by (intros s Hs; apply mem_iff; auto).
  unfold validate_vars. set (present := fun s => match get s (in_vars d) with Some _ => true | None => false end).
  assert (Req : forall name dims, In (name, dims) (required t) <->
     (dims = ["latitude"; "longitude"] /\ In name (expected_surface_vars t)) \/ (dims = ["level"; "latitude"; "longitude"] /\ In name (expected_level_vars t))).
  { intros name dims. destruct t; cbn; split.
    - intros H. repeat (destruct H as [H|H]; [injection H as <- <-; auto 12|]). destruct H.
    - intros [[-> H]|[-> H]]; repeat (destruct H as [<-|H]; [auto 20|]); destruct H.
    - intros H. repeat (destruct H as [H|H]; [injection H as <- <-; auto 12|]). destruct H.
    - intros [[-> H]|[-> H]]; repeat (destruct H as [<-|H]; [auto 20|]); destruct H. }
  destruct (negb (forallb present (expected_level_vars t ++ expected_surface_vars t))) eqn:E2.
  - split; [discriminate|]. intros (_ & H & _). exfalso. apply negb_true_iff in E2. assert (X : forallb present (expected_level_vars t ++ expected_surface_vars t) = true); [|congruence].
    apply forallb_forall. intros s Hs. apply in_app_or in Hs. unfold present.
    assert (exists v, In (s, v) (in_vars d)) as [v Hv].
    { destruct Hs as [Hs|Hs]; [destruct (H s ["level"; "latitude"; "longitude"]) as (v & Hv & _)|destruct (H s ["latitude"; "longitude"]) as (v & Hv & _)]; try (apply Req; tauto); eauto. }
    now rewrite (in_get _ _ _ N Hv).
  - destruct (check_dims ["latitude"; "longitude"] (expected_surface_vars t) d) eqn:E3.
    + destruct (check_dims ["level"; "latitude"; "longitude"] (expected_level_vars t) d) eqn:E4.
      * rewrite check_nans_iff. pose proof (proj1 (check_dims_iff _ _ _ N) E3) as H3. pose proof (proj1 (check_dims_iff _ _ _ N) E4) as H4.
        split; [intros H|tauto]. split; [exact D|]. split; [|exact H]. intros name dims Hr. apply Req in Hr as [[-> Hr]|[-> Hr]]; auto.
      * split; [discriminate|]. intros (_ & H & _). assert (check_dims ["level"; "latitude"; "longitude"] (expected_level_vars t) d = Accepted); [|congruence].
        apply (check_dims_iff _ _ _ N). intros s Hs. apply H. apply Req. auto.
    + split; [discriminate|]. intros (_ & H & _). assert (check_dims ["latitude"; "longitude"] (expected_surface_vars t) d = Accepted); [|congruence].
      apply (check_dims_iff _ _ _ N). intros s Hs. apply H. apply Req. auto.
Qed.
Definition ex_input (v : XR) : input :=
  let col := mkvar ["level"; "longitude"; "latitude"] [Fin 1%R; Fin 2%R] in let srf := mkvar ["latitude"; "longitude"] [Fin 1%R; v] in
  mkinput ["latitude"; "longitude"; "level"] [("q", col); ("u", col); ("v", col); ("dp", col); ("ps", srf); ("precip", srf); ("evap", srf)].
Example C58_witness : NoDup (map fst (in_vars (ex_input (Fin 3%R)))) /\ complete (ex_input (Fin 3%R)) model_levels /\ ~ complete (ex_input (Fin 3%R)) pressure_levels /\ ~ complete (ex_input NaN) model_levels.
Proof.
  assert (Nd : forall v, NoDup (map fst (in_vars (ex_input v)))) by (intros v; cbn; repeat (constructor; [cbn; intuition discriminate|]); constructor).
  split; [apply Nd|]. split; [|split].
  - apply C58_accepts_exactly_complete_data; [apply Nd|]. unfold validate_input, validate_vars. cbn.
    assert (E : forall r, nisnan (N := XRnum) (Fin r) = false) by (intros r; destruct (nisnan (N := XRnum) (Fin r)) eqn:E; [apply isnan_iff in E; discriminate|reflexivity]).
    rewrite !E. reflexivity.
  - intros H. apply C58_accepts_exactly_complete_data in H; [|apply Nd]. discriminate.
  - intros (_ & _ & H). apply (H "evap" (mkvar ["latitude"; "longitude"] [Fin 1%R; NaN])); cbn; auto 12.
Qed.
