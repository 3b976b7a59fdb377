(** * C112: the check of the calendar of CMIP data (utils/calendar.py l.55-83) *)
From Coq Require Import Arith Lia Bool List ZArith String.
From Verif Require Import Num Arr Run Calendar Config.
Import ListNotations.
Local Open Scope Z_scope.

(** ** The model *)
(** A CMIP file as far as it matters here: the attribute "calendar" of its time axis and
    its times, in microseconds since 1970-01-01 in that calendar. *)
Record cmip_times := mkcmip_times { ct_calendar : option string; ct_times : list Z }.
(** pandas' Timestamp: 64 bits of nanoseconds *)
Definition in_ns_range (t : Z) : bool := (Z.leb (- 9223372036854775808) (t * 1000) && Z.ltb (t * 1000) 9223372036854775808)%bool.
(** the name that cftime's classes carry (cftime.datetime.__init__ replaces synonyms) *)
Definition class_name (c : calendar) : string :=
  match c with
  | Standard => "standard" | ProlepticGregorian => "proleptic_gregorian" | Julian => "julian"
  | NoLeap => "noleap" | AllLeap => "all_leap" | Day360 => "360_day" end.
(** xarray's decoding (CF conventions: no attribute is the standard calendar): times of the
    standard and the proleptic Gregorian calendar become datetime64 if all fit, others cftime *)
Definition attribute (f : cmip_times) : res calendar :=
  match ct_calendar f with
  | None => OK Standard
  | Some s => match calendar_of s with Some c => OK c | None => Err ValueError end end.
Definition gregorian (c : calendar) : bool := match c with Standard | ProlepticGregorian => true | _ => false end.
Definition as_datetime64 (c : calendar) (times : list Z) : bool := (gregorian c && forallb in_ns_range times)%bool.
(** calendar.py l.55-65: has_cftime and get_calendar_type look at the first time *)
Definition get_calendar_type (f : cmip_times) : res string :=
  do c <- attribute f;
  match ct_times f with
  | [] => Err IndexError
  | _ => OK (if as_datetime64 c (ct_times f) then "standard"%string else class_name c)
  end.
(** l.68-78: [true] if there is a warning.  [files] is the listing of the files of "ua"
    (l.81-83), in the order in which the file system gives them. *)
Definition validate_calendar_type (config_calendar : string) (files : list cmip_times) : res bool :=
  match files with
  | [] => Err IndexError
  | f :: _ => do c <- get_calendar_type f; OK (negb (String.eqb c config_calendar))
  end.

(** ** Specification *)
(** the calendar of a file by the CF conventions *)
Definition file_calendar (f : cmip_times) (c : calendar) : Prop :=
  (ct_calendar f = None /\ c = Standard) \/ exists s, ct_calendar f = Some s /\ names s c.
(** year, month, day, and the time of the day are read alike in both calendars *)
Definition same_date (c c' : calendar) (t : Z) : Prop := date_of c t = date_of c' t.

(** ** The two Gregorian calendars agree from 1583 on *)
Lemma find_year_skip c k : forall fuel y d, 0 <= d ->
  find_year (k + fuel) c y (d + zsum (map (fun i => year_days c (y + Z.of_nat i)) (seq 0 k))) = find_year fuel c (y + Z.of_nat k) d.
Proof.
  induction k; intros fuel y d Hd; [cbn [plus seq map zsum fold_right Z.of_nat]; f_equal; lia|].
  cbn [seq map plus]. rewrite zsum_cons, <- seq_shift, map_map. cbn [find_year].
  replace (map (fun x => year_days c (y + Z.of_nat (S x))) (seq 0 k)) with (map (fun i => year_days c (y + 1 + Z.of_nat i)) (seq 0 k))
    by (apply map_ext; intros; f_equal; lia).
  pose proof (zsum_years_nonneg c (y + 1) k). replace (y + Z.of_nat 0) with y by lia.
  match goal with |- context [Z.ltb ?a ?b] => destruct (Z.ltb_spec a b); [lia|] end.
  replace (y + Z.of_nat (S k)) with (y + 1 + Z.of_nat k) by lia. rewrite <- IHk by exact Hd. f_equal. lia.
Qed.
Lemma months_agree y : 1583 <= y -> month_days Standard y = month_days ProlepticGregorian y.
Proof. intros H. unfold month_days, leap. destruct (Z.leb_spec y 1582); [lia|]. destruct (Z.eqb_spec y 1582); [lia|reflexivity]. Qed.
Lemma find_year_agree fuel : forall y d, 1583 <= y -> find_year fuel Standard y d = find_year fuel ProlepticGregorian y d.
Proof.
  induction fuel; intros y d H; [reflexivity|]. cbn [find_year]. unfold year_days. rewrite months_agree by exact H.
  destruct (Z.ltb _ _); [reflexivity|]. apply IHfuel. lia.
Qed.
Lemma find_year_from fuel c : forall y d y' d', find_year fuel c y d = Some (y', d') -> y <= y'.
Proof. intros y d y' d' H. apply find_year_spec in H. lia. Qed.
Definition before_1583 (c : calendar) : Z := zsum (map (fun i => year_days c (1 + Z.of_nat i)) (seq 0 1582)).
Lemma before_nonneg c : 0 <= before_1583 c.
Proof. unfold before_1583. apply zsum_years_nonneg. Qed.
Lemma epochs : epoch_day Standard - before_1583 Standard = 141349 /\ epoch_day ProlepticGregorian - before_1583 ProlepticGregorian = 141349.
Proof. rewrite epoch_eq. split; vm_compute; reflexivity. Qed.
Lemma dates_agree t : - 141349 <= t / day_us -> same_date Standard ProlepticGregorian t.
Proof.
  intros H. unfold same_date, date_of, day_of. rewrite civil_eq. unfold civil_search. destruct epochs as [E1 E2].
  pose proof (before_nonneg Standard) as P1. pose proof (before_nonneg ProlepticGregorian) as P2.
  destruct (Z.ltb_spec (epoch_day Standard + t / day_us) 0); [lia|]. destruct (Z.ltb_spec (epoch_day ProlepticGregorian + t / day_us) 0); [lia|].
  replace (epoch_day Standard + t / day_us) with ((141349 + t / day_us) + before_1583 Standard) by lia.
  replace (epoch_day ProlepticGregorian + t / day_us) with ((141349 + t / day_us) + before_1583 ProlepticGregorian) by lia.
  replace (Z.to_nat 9999) with (1582 + Z.to_nat 8417)%nat by lia.
  unfold before_1583. rewrite !find_year_skip by lia. change (1 + Z.of_nat 1582) with 1583. rewrite find_year_agree by lia.
  destruct (find_year (Z.to_nat 8417) ProlepticGregorian 1583 _) as [[y d]|] eqn:F; [|reflexivity]. apply find_year_from in F.
  rewrite months_agree by exact F. destruct (find_month _ _ _) as [m k]. unfold day_label. destruct (Z.eqb_spec y 1582); [lia|reflexivity].
Qed.
Lemma ns_range_modern t : in_ns_range t = true -> - 141349 <= t / day_us.
Proof.
  unfold in_ns_range. intros H. apply andb_prop in H. destruct H as [H _]. apply Z.leb_le in H.
  apply Z.div_le_lower_bound; unfold day_us, usec; lia.
Qed.

(** ** Theorems *)
Lemma attribute_spec f c : attribute f = OK c <-> file_calendar f c.
Proof.
  unfold attribute, file_calendar. destruct (ct_calendar f) as [s|].
  - split.
    + intros H. right. exists s. split; [reflexivity|]. apply calendar_of_iff. destruct (calendar_of s); [congruence|discriminate].
    + intros [[H _]|(s' & [= <-] & H)]; [discriminate|]. apply calendar_of_iff in H. now rewrite H.
  - split; [intros [= <-]; now left|]. intros [[_ ->]|(s' & H & _)]; [reflexivity|discriminate].
Qed.
Lemma class_name_inj c c' : class_name c = class_name c' -> c = c'.
Proof. destruct c, c'; cbn; congruence. Qed.
Lemma class_name_names c : names (class_name c) c.
Proof. unfold names. destruct c; cbn; auto 12. Qed.
Lemma names_fun s c c' : names s c -> names s c' -> c = c'.
Proof. intros H H'. apply calendar_of_iff in H. apply calendar_of_iff in H'. congruence. Qed.

(** Without a warning, the file that was looked at has the same dates in its own calendar and
    in the configured one; so if one of its dates differs, there is a warning. *)
Theorem C112_silence_is_safe conf f files c c' :
  names conf c -> file_calendar f c' -> validate_calendar_type conf (f :: files) = OK false ->
  forall t, In t (ct_times f) -> same_date c c' t.
Proof.
  intros Hc Hf H t Ht. cbn [validate_calendar_type] in H. unfold get_calendar_type in H.
  apply attribute_spec in Hf. rewrite Hf in H. cbn [bind] in H. destruct (ct_times f) as [|t0 ts] eqn:Et; [destruct Ht|]. rewrite <- Et in *. cbn [bind] in H.
  injection H as H. apply negb_false_iff in H. apply String.eqb_eq in H. destruct (as_datetime64 c' (ct_times f)) eqn:D.
  - assert (c = Standard) by (subst conf; exact (names_fun _ _ _ Hc (class_name_names Standard))). subst c.
    unfold as_datetime64 in D. apply andb_prop in D. destruct D as [G D]. rewrite forallb_forall in D. specialize (D t Ht).
    destruct c'; try discriminate G; [reflexivity|]. apply dates_agree, ns_range_modern, D.
  - subst conf. rewrite (names_fun _ _ _ Hc (class_name_names c')). reflexivity.
Qed.
Theorem C112_mismatch_is_reported conf f files c c' t :
  names conf c -> file_calendar f c' -> In t (ct_times f) -> ~ same_date c c' t -> validate_calendar_type conf (f :: files) = OK true.
Proof.
  intros Hc Hf Ht Hn. destruct (validate_calendar_type conf (f :: files)) as [[]|e] eqn:E; [reflexivity| |].
  - exfalso. exact (Hn (C112_silence_is_safe _ _ _ _ _ Hc Hf E t Ht)).
  - cbn [validate_calendar_type] in E. unfold get_calendar_type in E. apply attribute_spec in Hf. rewrite Hf in E. cbn [bind] in E.
    destruct (ct_times f); [destruct Ht|]. discriminate E.
Qed.
(** No warning for the right calendar, if it is called by its main name, and in the case
    of the proleptic Gregorian calendar if some time is too far away for datetime64.
    Missing: the synonyms, and the proleptic Gregorian calendar otherwise. *)
Theorem C112_no_false_alarm_partial f files c :
  file_calendar f c -> ct_times f <> [] ->
  (c = ProlepticGregorian -> exists t, In t (ct_times f) /\ in_ns_range t = false) ->
  validate_calendar_type (class_name c) (f :: files) = OK false.
Proof.
  intros Hf Hn Hp. cbn [validate_calendar_type]. unfold get_calendar_type. apply attribute_spec in Hf. rewrite Hf. cbn [bind].
  destruct (ct_times f) as [|t0 ts] eqn:Et; [congruence|]. rewrite <- Et in *. cbn [bind].
  assert (E : (if as_datetime64 c (ct_times f) then "standard"%string else class_name c) = class_name c).
  { unfold as_datetime64. destruct c; cbn [gregorian andb]; try reflexivity; [now destruct (forallb _ _)|].
    destruct (Hp eq_refl) as (t & H1 & H2). destruct (forallb in_ns_range (ct_times f)) eqn:D; [|reflexivity].
    rewrite forallb_forall in D. rewrite (D t H1) in H2. discriminate H2. }
  rewrite E, String.eqb_refl. reflexivity.
Qed.
(** Three of the nine calendar names always give a warning, whatever the data, and a fourth
    does for data of the years 1678 to 2261, even if it is the calendar of the data. *)
Theorem C112_false_alarm_refuted :
  (forall conf f files, In conf ["gregorian"; "365_day"; "366_day"]%string -> (exists c, file_calendar f c) -> ct_times f <> [] ->
    validate_calendar_type conf (f :: files) = OK true) /\
  (forall times files, times <> [] -> (forall t, In t times -> in_ns_range t = true) ->
    validate_calendar_type "proleptic_gregorian" (mkcmip_times (Some "proleptic_gregorian"%string) times :: files) = OK true) /\
  (exists f, file_calendar f NoLeap /\ names "365_day" NoLeap /\ (forall t, In t (ct_times f) -> same_date NoLeap NoLeap t) /\
    validate_calendar_type "365_day" [f] = OK true).
Proof.
  split; [|split].
  - intros conf f files Hc [c Hf] Hn. cbn [validate_calendar_type]. unfold get_calendar_type. apply attribute_spec in Hf. rewrite Hf. cbn [bind].
    destruct (ct_times f) as [|t0 ts]; [congruence|]. cbn [bind].
    destruct (as_datetime64 c (t0 :: ts)), c; destruct Hc as [<-|[<-|[<-|[]]]]; reflexivity.
  - intros times files Hn H. cbn [validate_calendar_type]. unfold get_calendar_type, attribute. cbn [ct_calendar ct_times].
    change (calendar_of "proleptic_gregorian") with (Some ProlepticGregorian). cbn [bind]. destruct times as [|t ts]; [congruence|].
    unfold as_datetime64. cbn [gregorian andb]. replace (forallb in_ns_range (t :: ts)) with true by (symmetry; apply forallb_forall; exact H). reflexivity.
  - exists (mkcmip_times (Some "noleap"%string) [0]). split; [right; exists "noleap"%string; split; [reflexivity|]; apply (class_name_names NoLeap)|].
    split; [unfold names; cbn; auto 12|]. split; [reflexivity|reflexivity].
Qed.
(** Only one file is looked at, and only of the variable "ua": another file may have another
    calendar without a warning (and which one is looked at depends on the listing). *)
Theorem C112_other_files_refuted : exists f g t,
  file_calendar f Standard /\ file_calendar g Day360 /\ In t (ct_times g) /\ ~ same_date Standard Day360 t /\
  validate_calendar_type "standard" [f; g] = OK false /\ validate_calendar_type "standard" [g; f] = OK true.
Proof.
  exists (mkcmip_times (Some "standard"%string) [0]), (mkcmip_times (Some "360_day"%string) [30 * day_us]), (30 * day_us).
  split; [right; exists "standard"%string; split; [reflexivity|apply (class_name_names Standard)]|].
  split; [right; exists "360_day"%string; split; [reflexivity|apply (class_name_names Day360)]|].
  split; [now left|]. split; [|split; reflexivity].
  unfold same_date, date_of, day_of. rewrite civil_eq, epoch_eq. vm_compute. discriminate.
Qed.
(** Without a file, or with one without times, there is an error. *)
Theorem C112_nothing_to_check conf files f c : 
  validate_calendar_type conf [] = Err IndexError /\
  (file_calendar f c -> ct_times f = [] -> validate_calendar_type conf (f :: files) = Err IndexError).
Proof.
  split; [reflexivity|]. intros Hf Ht. cbn [validate_calendar_type]. unfold get_calendar_type. apply attribute_spec in Hf. rewrite Hf, Ht. reflexivity.
Qed.
(** The hypotheses are met: a proleptic file read by a standard configuration, silently and
    safely, and a 360-day file with a warning. *)
Example C112_case :
  validate_calendar_type "standard" [mkcmip_times (Some "proleptic_gregorian"%string) [0; day_us]] = OK false /\
  validate_calendar_type "standard" [mkcmip_times (Some "360_day"%string) [30 * day_us]] = OK true /\
  validate_calendar_type "noleap" [mkcmip_times (Some "365_day"%string) [0]] = OK false /\
  ~ same_date Standard ProlepticGregorian (- 200000 * day_us).
Proof.
  split; [vm_compute; reflexivity|]. split; [vm_compute; reflexivity|]. split; [vm_compute; reflexivity|].
  unfold same_date, date_of, day_of. rewrite civil_eq, epoch_eq. vm_compute. discriminate.
Qed.
