(** * C115: what an output file says about its origin
    tracking/io.py l.167-187 (get_main_attrs), l.190-219 (write_output), tracking/backtrack.py l.117-147 and
    tracking/forwardtrack.py l.118-150 (initialize), backtrack.py l.109-114, l.213 and forwardtrack.py l.110-116, l.222 (updates of the
    output); preprocessing/shared.py l.224 (the attributes of preprocessed files).
    Not modelled: the values of the variables (see Track, Run), the attributes of single variables. *)
From Coq Require Import Arith Lia Bool List ZArith String.
From Verif Require Import Num Arr Core Calendar DateText.
Import ListNotations.
Local Open Scope list_scope.

(** ** Model *)
(** global attributes; a later entry of the same name does not occur *)
Definition attributes := list (string * string).
Fixpoint attr (name : string) (a : attributes) : option string :=
  match a with [] => None | (n, v) :: a => if String.eqb n name then Some v else attr name a end.
(** io.py l.169-172: the line of this file; [now] is UTC, [version] that of the package *)
Definition new_history (now : Z) (version : string) : string :=
  ("created on " ++ iso_date ProlepticGregorian now ++ "Z using wam2layers version " ++ version ++ "; ")%string.
(** io.py l.173-187; [config]: config.to_string().  The conditional binds weaker than "+". *)
Definition get_main_attrs (a : attributes) (direction config version : string) (now : Z) : attributes :=
  [ ("title", "WAM2Layers " ++ direction ++ "tracking output file");
    ("history", match attr "history" a with Some h => new_history now version ++ h | None => new_history now version end);
    ("source", "Moisture tracking applied to original data; " ++ match attr "source" a with Some s => s | None => "UNKNOWN" end);
    ("references", "doi.org/10.5281/zenodo.7010594, doi.org/10.5194/esd-5-471-2014");
    ("Conventions", "CF-1.6");
    ("WAM2Layers_config", config) ]%string.
(** a dataset: variables (of any kind) and global attributes *)
Record dataset (V : Type) := mkdataset { variables : list (string * V); attrs : attributes }.
Arguments mkdataset {V}. Arguments variables {V}. Arguments attrs {V}.
(** xr.Dataset({name: DataArray}) has no attributes *)
Definition Dataset {V} (vars : list (string * V)) : dataset V := mkdataset vars [].
(** initialize: new fields on the coordinates of the input ([input]: the preprocessed data of that time); in a restart two of them
    get the values of the previous file *)
Definition initialize {V} (zero : V) (names : list string) (input : dataset V) (restart : option (dataset V)) : dataset V :=
  let output := Dataset (map (fun n => (n, zero)) names) in
  match restart with
  | None => output
  | Some old => mkdataset (map (fun nv => match find (fun ov => String.eqb (fst ov) (fst nv)) (variables old) with
                                         | Some (_, v) => if existsb (String.eqb (fst nv)) ["s_track_upper_restart"; "s_track_lower_restart"]%string then (fst nv, v) else nv
                                         | None => nv end) (variables output)) (attrs output)
  end.
(** what a run does with the output: it assigns variables, and writes files (io.py l.190-219: a copy with new attributes) *)
Inductive action (V : Type) := Assign (name : string) (v : V) | Write (now : Z).
Arguments Assign {V}. Arguments Write {V}.
Definition act {V} (direction config version : string) (s : dataset V * list attributes) (a : action V) : dataset V * list attributes :=
  match a with
  | Assign n v => (mkdataset (map (fun nv => if String.eqb (fst nv) n then (n, v) else nv) (variables (fst s))) (attrs (fst s)), snd s)
  | Write now => (fst s, snd s ++ [get_main_attrs (attrs (fst s)) direction config version now])
  end.
(** the attributes of the files of a run, in the order of writing *)
Definition written_attrs {V} (zero : V) names input restart direction config version (actions : list (action V)) : list attributes :=
  snd (fold_left (act direction config version) actions (initialize zero names input restart, [])).

(** ** Specification *)
Definition contains (part whole : string) : Prop := exists a b, whole = (a ++ part ++ b)%string.
(** the origin of the data is kept: the source of the input and its history are named in the file *)
Definition origin_kept {V} (input : dataset V) (a : attributes) : Prop :=
  (forall s, attr "source" (attrs input) = Some s -> exists x, attr "source" a = Some x /\ contains s x) /\
  (forall h, attr "history" (attrs input) = Some h -> exists x, attr "history" a = Some x /\ contains h x).
Definition write_times {V} (actions : list (action V)) : list Z := flat_map (fun a => match a with Write now => [now] | Assign _ _ => [] end) actions.

Lemma initialize_no_attrs {V} (zero : V) names input restart : attrs (initialize zero names input restart) = [].
Proof. destruct restart; reflexivity. Qed.
Lemma act_all {V} direction config version (actions : list (action V)) : forall d l, attrs d = [] ->
  snd (fold_left (act direction config version) actions (d, l)) = l ++ map (get_main_attrs [] direction config version) (write_times actions).
Proof.
  induction actions as [|a actions IH]; intros d l H; [cbn; now rewrite app_nil_r|]. destruct a as [n v|now]; cbn [fold_left act fst snd].
  - rewrite IH by exact H. reflexivity.
  - rewrite IH by exact H. rewrite H. unfold write_times. cbn [flat_map]. change ([now] ++ ?x) with (now :: x). cbn [map app]. rewrite <- app_assoc. reflexivity.
Qed.

(** ** C115 *)
(** Every file of every run, whatever the data, the updates and the restart: it names the direction, this package's version and
    the time of writing, and holds the configuration; but its source is UNKNOWN and its history begins with itself. *)
Theorem C115_attributes_partial {V} (zero : V) names input restart direction config version actions k now :
  nth_error (write_times actions) k = Some now ->
  exists a, nth_error (written_attrs zero names input restart direction config version actions) k = Some a /\
    attr "title" a = Some ("WAM2Layers " ++ direction ++ "tracking output file")%string /\
    attr "WAM2Layers_config" a = Some config /\
    attr "history" a = Some ("created on " ++ iso_date ProlepticGregorian now ++ "Z using wam2layers version " ++ version ++ "; ")%string /\
    attr "source" a = Some "Moisture tracking applied to original data; UNKNOWN"%string.
Proof.
  intros H. unfold written_attrs. rewrite act_all by apply initialize_no_attrs. cbn [app]. eexists. split; [apply map_nth_error; exact H|].
  repeat split; reflexivity.
Qed.
(** one file per write, none else *)
Theorem C115_one_per_file {V} (zero : V) names input restart direction config version actions :
  List.length (written_attrs zero names input restart direction config version actions) = List.length (write_times actions).
Proof. unfold written_attrs. rewrite act_all by apply initialize_no_attrs. cbn [app]. apply map_length. Qed.

(** So the origin is lost: whatever the source and the history of the input, the files do not name them (but by a coincidence with the fixed text). *)
Theorem C115_source_lost_refuted {V} (zero : V) names input restart direction config version actions a s :
  In a (written_attrs zero names input restart direction config version actions) ->
  attr "source" (attrs input) = Some s -> ~ contains s "Moisture tracking applied to original data; UNKNOWN"%string -> ~ origin_kept input a.
Proof.
  intros Ha Hs L [K _]. apply In_nth_error in Ha as [k Hk].
  assert (exists now, nth_error (write_times actions) k = Some now) as [now Hn].
  { destruct (nth_error (write_times actions) k) as [now|] eqn:E; [now exists now|]. apply nth_error_None in E.
    rewrite <- (C115_one_per_file zero names input restart direction config version actions) in E. apply nth_error_None in E. congruence. }
  destruct (C115_attributes_partial zero names input restart direction config version actions k now Hn) as (a' & E & _ & _ & _ & Es).
  assert (a' = a) by congruence. subst a'. destruct (K s Hs) as (x & Ex & C). rewrite Es in Ex. injection Ex as <-. exact (L C).
Qed.
Theorem C115_history_lost_refuted {V} (zero : V) names input restart direction config version actions k now a h :
  nth_error (write_times actions) k = Some now -> nth_error (written_attrs zero names input restart direction config version actions) k = Some a ->
  attr "history" (attrs input) = Some h ->
  ~ contains h ("created on " ++ iso_date ProlepticGregorian now ++ "Z using wam2layers version " ++ version ++ "; ")%string -> ~ origin_kept input a.
Proof.
  intros Hn Ha Hs L [_ K]. destruct (C115_attributes_partial zero names input restart direction config version actions k now Hn) as (a' & E & _ & _ & Eh & _).
  assert (a' = a) by congruence. subst a'. destruct (K h Hs) as (x & Ex & C). rewrite Eh in Ex. injection Ex as <-. exact (L C).
Qed.
(** It is the initialisation that loses it: get_main_attrs would keep what it is given, with its own line before. *)
Theorem C115_would_be_kept {V} (input : dataset V) direction config version now :
  let a := get_main_attrs (attrs input) direction config version now in
  origin_kept input a /\ exists h, attr "history" a = Some ("created on " ++ iso_date ProlepticGregorian now ++ "Z using wam2layers version " ++ version ++ "; " ++ h)%string.
Proof.
  cbv zeta. split.
  2: { cbn [attr get_main_attrs String.eqb Ascii.eqb Bool.eqb]. exists (match attr "history" (attrs input) with Some h => h | None => ""%string end). f_equal.
       unfold new_history. destruct (attr "history" (attrs input)) as [h|].
       - now rewrite !append_assoc.
       - reflexivity. }
  split.
  - intros s E. eexists. cbn. rewrite E. split; [reflexivity|]. exists "Moisture tracking applied to original data; "%string, ""%string.
    clear. induction s as [|x s IH]; [reflexivity|]. cbn in *. congruence.
  - intros h E. eexists. cbn. rewrite E. split; [reflexivity|]. exists (new_history now version), ""%string.
    assert (R : forall q : string, (q ++ "")%string = q) by (induction q as [|x q IH]; [reflexivity|cbn; now rewrite IH]). now rewrite R.
Qed.

(** ERA5 data (preprocessing/era5.py l.22-34), three steps, two files *)
Lemma length_contains part whole : contains part whole -> (String.length part <= String.length whole)%nat.
Proof. intros (a & b & ->). rewrite !append_length. lia. Qed.
Definition era5_input : dataset nat := mkdataset [("s_upper"%string, 1%nat)]
  [("title", "ERA5 data preprocessed for use in WAM2layers");
   ("source", "ECMWF Reanalysis v5 (ERA5), www.ecmwf.int/en/forecasts/dataset/ecmwf-reanalysis-v5")]%string.
Theorem C115_case : exists a b, written_attrs 0%nat ["e_track"%string] era5_input None "back" "{}" "3.1" [Assign "e_track"%string 1%nat; Write 0; Assign "e_track"%string 2%nat; Write 7] = [a; b] /\
  ~ origin_kept era5_input a /\ ~ origin_kept era5_input b.
Proof.
  set (acts := [Assign "e_track"%string 1%nat; Write 0; Assign "e_track"%string 2%nat; Write 7]).
  pose proof (C115_source_lost_refuted 0%nat ["e_track"%string] era5_input None "back" "{}" "3.1" acts) as P.
  unfold written_attrs in *. rewrite act_all in * by reflexivity. cbn [app] in *.
  change (write_times acts) with [0%Z; 7%Z] in *. cbn [map] in *. eexists _, _. split; [reflexivity|].
  split; (eapply P; [cbn [In]; auto|reflexivity|intros C; apply length_contains, Nat.leb_le in C; discriminate C]).
Qed.
