(** * The preprocessing run (model): preprocessing/shared.py l.25-34, l.116-155, l.220-272,
      preprocessing/xarray_append.py l.31-44

    What is computed for one time (get_input_data and the integration to two layers) is the
    parameter [data]; it is modelled in Surface.v, Levels.v and Cmip.v.  Here: which times
    are processed, in which files they end up, in which order, and what survives a crash. *)
From Coq Require Import Arith Lia Bool List ZArith String Permutation Sorted.
From Verif Require Import Num Arr Core Track Progress Cells Run RunBody RunProps Calendar Load.
Import ListNotations.
Local Open Scope Z_scope.
Local Open Scope list_scope.

Definition minute_us : Z := 60 * usec.
(** xarray's CFTimeIndex.round: to the nearest multiple, half to even *)
Definition round_nearest (t unit : Z) : Z :=
  let q := t / unit in let r := t mod unit in
  if (Z.ltb (unit / 2) r || (Z.eqb r (unit / 2) && Z.odd q))%bool then (q + 1) * unit else q * unit.

(** the settings used (config.py): preprocess_start_date, preprocess_end_date,
    input_frequency (a fixed duration), preprocessed_data_folder *)
Record prepcfg := mkprepcfg { pc_start : Z; pc_end : Z; pc_freq : Z; pc_cal : calendar; pc_dir : string }.

(** shared.py l.25-34: get_input_dates *)
Definition cftime_range (s e freq : Z) : list Z :=
  map (fun k => s + Z.of_nat k * freq) (seq 0 (Z.to_nat ((e - s) / freq + 1))).
Definition input_dates (c : prepcfg) : list Z :=
  map (fun t => round_nearest t minute_us) (cftime_range (pc_start c) (pc_end c) (pc_freq c)).

(** shared.py l.243-255: group_timestamps_by_day.  (pandas sorts the groups by key; the
    order of the groups does not matter below.) *)
Definition day_key (cal : calendar) (t : Z) : Z :=
  match date_of cal t with Some (y, m, d) => y * 10000 + m * 100 + d | None => -1 end.
Definition day_groups (cal : calendar) (l : list Z) : list (list Z) :=
  map (fun k => filter (fun t => Z.eqb (day_key cal t) k) l) (nodup Z.eq_dec (map (day_key cal) l)).

Section Prep.
  Context {N : NumOps} (data : Z -> slice N).

  (** one write: mode "w" for the first time of a day, append_to_netcdf otherwise *)
  Inductive action := Create (name : string) (t : Z) | Append (name : string) (t : Z).
  Definition target (a : action) : string := match a with Create n _ | Append n _ => n end.
  (** shared.py l.220-235 *)
  Definition act_file (a : action) (f : option (ncfile N)) : res (option (ncfile N)) :=
    match a with
    | Create _ t => OK (Some [(t, data t)])
    | Append _ t => match f with Some f => OK (Some (f ++ [(t, data t)])) | None => Err FileNotFoundError end
    end.
  Definition act (a : action) (fs : folder N) : res (folder N) :=
    do f <- act_file a (fs (target a));
    OK (fun name => if String.eqb name (target a) then f else fs name).
  Fixpoint acts (l : list action) (fs : folder N) : res (folder N) :=
    match l with [] => OK fs | a :: l => do fs <- act a fs; acts l fs end.

  (** shared.py l.135-155 and l.220-235: the writes of preprocess(datetimes) *)
  Definition day_actions (cal : calendar) (dir : string) (datetimes : list Z) : list action :=
    match datetimes with
    | [] => []
    | t :: l => Create (input_path cal dir t) t :: map (fun t => Append (input_path cal dir t) t) l
    end.
  Definition workers (c : prepcfg) : list (list action) :=
    map (day_actions (pc_cal c) (pc_dir c)) (day_groups (pc_cal c) (input_dates c)).

  (** Interleavings of the workers.  parallel_preprocess (l.258-272) runs the days in a pool
      of processes, so some interleaving happens; sequential preprocessing (l.130-132) does
      one day after the other. *)
  Inductive schedule : list (list action) -> list action -> Prop :=
  | sched_done ws : (forall w, In w ws -> w = []) -> schedule ws []
  | sched_step before a w after l : schedule (before ++ w :: after) l -> schedule (before ++ (a :: w) :: after) (a :: l).
  Definition sequential (ws : list (list action)) : list action := List.concat ws.

  Lemma sequential_is_schedule ws : schedule ws (sequential ws).
  Proof.
    unfold sequential. enough (G : forall done, (forall w, In w done -> w = []) -> schedule (done ++ ws) (List.concat ws)) by exact (G [] ltac:(intros w [])).
    induction ws as [|w ws IH]; intros done Hd; cbn.
    - rewrite app_nil_r. now constructor.
    - induction w as [|a w IHw]; cbn.
      + replace (done ++ [] :: ws) with ((done ++ [[]]) ++ ws) by now rewrite <- app_assoc.
        apply IH. intros w Hw. apply in_app_or in Hw. destruct Hw as [Hw|[<-|[]]]; auto.
      + constructor. exact IHw.
  Qed.

  (** ** a schedule, seen from one file *)
  Definition on (name : string) (a : action) : bool := String.eqb name (target a).
  Fixpoint file_acts (l : list action) (f : option (ncfile N)) : res (option (ncfile N)) :=
    match l with [] => OK f | a :: l => do f <- act_file a f; file_acts l f end.
  Lemma acts_filewise l : forall fs (final : string -> option (ncfile N)),
    (forall name, file_acts (filter (on name) l) (fs name) = OK (final name)) ->
    exists fs', acts l fs = OK fs' /\ forall name, fs' name = final name.
  Proof.
    induction l as [|a l IH]; intros fs final H; cbn [acts].
    - exists fs. split; [reflexivity|]. intros name. specialize (H name). cbn in H. congruence.
    - unfold act. pose proof (H (target a)) as Ht. cbn [filter] in Ht. unfold on at 1 in Ht. rewrite String.eqb_refl in Ht. cbn [file_acts] in Ht.
      destruct (act_file a (fs (target a))) as [f|] eqn:E; [|discriminate]. cbn [bind] in *.
      apply IH. intros name. destruct (String.eqb_spec name (target a)) as [->|Hn]; [exact Ht|].
      specialize (H name). cbn [filter] in H. unfold on at 1 in H. destruct (String.eqb_spec name (target a)); [congruence|exact H].
  Qed.
  Lemma acts_filewise_inv l : forall fs fs', acts l fs = OK fs' -> forall name, file_acts (filter (on name) l) (fs name) = OK (fs' name).
  Proof.
    induction l as [|a l IH]; intros fs fs' H name; cbn [acts] in H.
    - injection H as <-. reflexivity.
    - unfold act in H. destruct (act_file a (fs (target a))) as [f|] eqn:E; [|discriminate]. cbn [bind] in H.
      specialize (IH _ _ H name). clear H. rename IH into H. cbv beta in H. cbn [filter]. unfold on at 1.
      destruct (String.eqb_spec name (target a)) as [Q|Hn]; [|exact H]. cbn [file_acts]. rewrite Q in *. rewrite E. exact H.
  Qed.

  (** every worker writes to its own file *)
  Definition private (ws : list (list action)) (names : list string) : Prop :=
    Forall2 (fun w n => forall a, In a w -> target a = n) ws names /\ NoDup names.
  Lemma filter_other name l : (forall a, In a l -> target a <> name) -> filter (on name) l = [].
  Proof.
    induction l as [|a l IH]; intros H; [reflexivity|]. cbn. unfold on at 1.
    destruct (String.eqb_spec name (target a)) as [E|]; [exfalso; apply (H a); [now left|congruence]|].
    apply IH. intros; apply H; now right.
  Qed.
  Lemma filter_own name l : (forall a, In a l -> target a = name) -> filter (on name) l = l.
  Proof.
    induction l as [|a l IH]; intros H; [reflexivity|]. cbn. unfold on at 1.
    rewrite (H a (or_introl eq_refl)), String.eqb_refl. f_equal. apply IH. intros; apply H; now right.
  Qed.
  Lemma Forall2_len {A B} (P : A -> B -> Prop) l l' : Forall2 P l l' -> List.length l = List.length l'.
  Proof. induction 1; cbn; congruence. Qed.
  Lemma schedule_filter ws l : schedule ws l -> forall names, private ws names ->
    (forall name, ~ In name names -> filter (on name) l = []) /\
    (forall i w n, nth_error ws i = Some w -> nth_error names i = Some n -> filter (on n) l = w).
  Proof.
    induction 1 as [ws Hd|before a w after l Hs IH]; intros names [P D].
    - split; [reflexivity|]. intros i w n Hw _. cbn. symmetry. apply Hd. eapply nth_error_In; eauto.
    - apply Forall2_app_inv_l in P. destruct P as (n1 & n2' & P1 & P2 & ->). inversion P2 as [|? n ? n2 Pw P2' E1 E2]. subst.
      destruct (IH (n1 ++ n :: n2)) as [A B].
      { split; [|exact D]. apply Forall2_app; [exact P1|]. constructor; [|exact P2']. intros b Hb. apply Pw. now right. }
      pose proof (Pw a (or_introl eq_refl)) as Ha.
      assert (L1 : List.length n1 = List.length before) by (symmetry; eapply Forall2_len; eauto).
      split.
      + intros name Hn. cbn. unfold on at 1. destruct (String.eqb_spec name (target a)) as [E|]; [|auto].
        exfalso. apply Hn. rewrite E, Ha. apply in_or_app. right. now left.
      + intros i w' n' Hw' Hn'. cbn. unfold on at 1. destruct (String.eqb_spec n' (target a)) as [E|E].
        * rewrite Ha in E. subst n'.
          assert (i = List.length n1).
          { apply (NoDup_nth_error (n1 ++ n :: n2)); [exact D|apply nth_error_Some; congruence|].
            rewrite Hn', nth_error_app2, Nat.sub_diag by lia. reflexivity. }
          subst i. rewrite L1, nth_error_app2, Nat.sub_diag in Hw' by lia. cbn in Hw'. injection Hw' as <-. f_equal.
          apply (B (List.length n1)); [rewrite L1, nth_error_app2, Nat.sub_diag by lia; reflexivity|exact Hn'].
        * apply (B i); [|exact Hn'].
          assert (i <> List.length n1).
          { intros ->. rewrite nth_error_app2, Nat.sub_diag in Hn' by lia. cbn in Hn'. congruence. }
          destruct (Nat.lt_ge_cases i (List.length before)).
          -- rewrite nth_error_app1 in * by lia. exact Hw'.
          -- rewrite nth_error_app2 in * by lia. destruct (i - List.length before)%nat eqn:Ei; [lia|exact Hw'].
  Qed.

  (** the content of a day file does not depend on what was there before *)
  Lemma day_file cal dir t l f : (forall t', In t' l -> input_path cal dir t' = input_path cal dir t) ->
    file_acts (day_actions cal dir (t :: l)) f = OK (Some (map (fun t => (t, data t)) (t :: l))).
  Proof.
    intros _. cbn [day_actions file_acts act_file bind].
    assert (G : forall l pre, file_acts (map (fun t => Append (input_path cal dir t) t) l) (Some pre) = OK (Some (pre ++ map (fun t => (t, data t)) l))).
    { induction l0 as [|x l0 IH]; intros pre; cbn; [now rewrite app_nil_r|]. rewrite IH, <- app_assoc. reflexivity. }
    rewrite G. reflexivity.
  Qed.
End Prep.
Arguments act {N} data a fs. Arguments acts {N} data l fs.

Lemma day_key_date cal t t' : four_digit_year cal t -> four_digit_year cal t' ->
  day_key cal t = day_key cal t' <-> t / day_us = t' / day_us.
Proof.
  intros H H'. rewrite <- (strf_day_inj cal) by auto. destruct H as (y & m & d & E & _). destruct H' as (y' & m' & d' & E' & _).
  unfold day_key, strf_day. rewrite E, E'. apply date_of_civil in E. apply date_of_civil in E'.
  destruct (civil_bounds _ _ _ _ _ E) as (? & ? & ?). destruct (civil_bounds _ _ _ _ _ E') as (? & ? & ?). split.
  - intros. assert (y = y' /\ m = m' /\ d = d') as (-> & -> & ->) by lia. reflexivity.
  - intros Q. apply ymd_inj in Q; auto. destruct Q as (-> & -> & ->). reflexivity.
Qed.

Lemma input_path_key cal dir t t' : four_digit_year cal t -> four_digit_year cal t' ->
  input_path cal dir t = input_path cal dir t' <-> day_key cal t = day_key cal t'.
Proof. intros. rewrite C64_input_file_is_the_day, day_key_date by auto. reflexivity. Qed.


Global Opaque day_key.
(** the name of a group *)
Definition group_name (cal : calendar) (dir : string) (g : list Z) : string := input_path cal dir (hd 0 g).

Section Workers.
  Context {N : NumOps} (data : Z -> slice N) (cal : calendar) (dir : string) (dates : list Z)
    (Hd : forall t, In t dates -> four_digit_year cal t).
  Let groups := day_groups cal dates.
  Let ws := map (day_actions cal dir) groups.
  Let names := map (group_name cal dir) groups.

  Lemma group_spec g : In g groups <-> exists t, In t dates /\ g = filter (fun t' => Z.eqb (day_key cal t') (day_key cal t)) dates.
  Proof.
    unfold groups, day_groups. rewrite in_map_iff. split.
    - intros (k & <- & Hk). apply nodup_In in Hk. apply in_map_iff in Hk. destruct Hk as (t & <- & Ht). eauto.
    - intros (t & Ht & ->). exists (day_key cal t). split; [reflexivity|]. apply nodup_In. now apply in_map.
  Qed.
  Lemma group_head g : In g groups -> In (hd 0 g) dates /\ g <> [] /\ forall t, In t g -> In t dates /\ day_key cal t = day_key cal (hd 0 g).
  Proof.
    intros Hg. apply group_spec in Hg. destruct Hg as (t & Ht & E).
    assert (A : forall x, In x g -> In x dates /\ day_key cal x = day_key cal t).
    { intros x Hx. rewrite E in Hx. apply filter_In in Hx. destruct Hx as [H1 H2]. apply Z.eqb_eq in H2. auto. }
    assert (In t g) by (rewrite E; apply filter_In; split; [auto|apply Z.eqb_refl]).
    destruct g as [|x g]; [destruct H|]. cbn [hd]. destruct (A x (or_introl eq_refl)) as [Hx Kx].
    split; [exact Hx|]. split; [discriminate|]. intros t' Ht'. destruct (A t' Ht'). split; [auto|congruence].
  Qed.
  Lemma workers_private : private ws names.
  Proof.
    split.
    - unfold ws, names. assert (G : forall l, (forall g, In g l -> In g groups) ->
        Forall2 (fun w n => forall a, In a w -> target a = n) (map (day_actions cal dir) l) (map (group_name cal dir) l)).
      { induction l as [|g l IH]; intros H; cbn; constructor; [|apply IH; intros; apply H; now right].
        destruct (group_head g (H g (or_introl eq_refl))) as (H1 & H2 & H3). intros a Ha.
        destruct g as [|t g]; [congruence|]. unfold group_name. cbn [hd] in *. cbn in Ha. destruct Ha as [<-|Ha]; [reflexivity|].
        apply in_map_iff in Ha. destruct Ha as (t' & <- & Ht'). cbn. destruct (H3 t' (or_intror Ht')).
        apply input_path_key; auto. }
      apply G. auto.
    - unfold names, groups, day_groups. rewrite map_map.
      assert (G : forall keys, NoDup keys -> (forall k, In k keys -> exists t, In t dates /\ k = day_key cal t) ->
        NoDup (map (fun k => group_name cal dir (filter (fun t => Z.eqb (day_key cal t) k) dates)) keys)).
      { induction keys as [|k keys IH]; intros Hn Hk; cbn; constructor.
        - inversion_clear Hn as [|? ? Hk1 Hn']. intros C. apply in_map_iff in C. destruct C as (k' & E & Hk').
          destruct (Hk k (or_introl eq_refl)) as (t & Ht & ->). destruct (Hk k' (or_intror Hk')) as (t' & Ht' & ->).
          destruct (group_head (filter (fun x => Z.eqb (day_key cal x) (day_key cal t)) dates)) as (A1 & _ & A3); [apply group_spec; exists t; split; [exact Ht|reflexivity]|].
          destruct (group_head (filter (fun x => Z.eqb (day_key cal x) (day_key cal t')) dates)) as (B1 & _ & B3); [apply group_spec; exists t'; split; [exact Ht'|reflexivity]|].
          destruct (A3 t) as [_ A4]; [apply filter_In; split; [auto|apply Z.eqb_refl]|].
          destruct (B3 t') as [_ B4]; [apply filter_In; split; [auto|apply Z.eqb_refl]|].
          unfold group_name in E. apply input_path_key in E; auto. apply Hk1. rewrite A4, <- E, <- B4. exact Hk'.
        - apply IH; [now inversion Hn|]. intros; apply Hk; now right. }
      apply G; [apply NoDup_nodup|]. intros k Hk. apply nodup_In, in_map_iff in Hk. destruct Hk as (t & <- & Ht). eauto.
  Qed.

  (** what any complete schedule does to any folder *)
  Lemma schedule_result l fs : schedule ws l -> exists fs', acts data l fs = OK fs' /\
    (forall t, In t dates -> fs' (input_path cal dir t) =
       Some (map (fun t' => (t', data t')) (filter (fun t' => Z.eqb (day_key cal t') (day_key cal t)) dates))) /\
    (forall name, (forall t, In t dates -> name <> input_path cal dir t) -> fs' name = fs name).
  Proof.
    intros S. destruct (schedule_filter ws l S names workers_private) as [A B].
    assert (C : forall t, In t dates -> filter (on (input_path cal dir t)) l =
      day_actions cal dir (filter (fun t' => Z.eqb (day_key cal t') (day_key cal t)) dates)).
    { intros t Ht. set (g := filter _ dates). assert (Hg : In g groups) by (apply group_spec; exists t; split; [exact Ht|reflexivity]).
      destruct (In_nth_error _ _ Hg) as [i Hi]. apply (B i).
      - unfold ws. rewrite nth_error_map, Hi. reflexivity.
      - unfold names. rewrite nth_error_map, Hi. cbn. f_equal. unfold group_name.
        destruct (group_head g Hg) as (H1 & _ & H3). apply input_path_key; auto. symmetry. apply (H3 t).
        apply filter_In. split; [auto|apply Z.eqb_refl]. }
    assert (E : forall name, {t | In t dates /\ name = input_path cal dir t} + {forall t, In t dates -> name <> input_path cal dir t}).
    { intros name. clear. induction dates as [|t l IH]; [right; intros t []|].
      destruct (string_dec name (input_path cal dir t)) as [Q|Q]; [left; exists t; split; [now left|exact Q]|].
      destruct IH as [[t' [H1 H2]]|H]; [left; exists t'; split; [now right|exact H2]|right]. intros t' [<-|H']; auto. }
    destruct (acts_filewise data l fs (fun name => match E name with
       | inleft (exist _ t _) => Some (map (fun t' => (t', data t')) (filter (fun t' => Z.eqb (day_key cal t') (day_key cal t)) dates))
       | inright _ => fs name end)) as (fs' & R & F).
    { intros name. destruct (E name) as [[t [Ht ->]]|Hn].
      - rewrite (C t Ht). assert (Hg : In (filter (fun t' => Z.eqb (day_key cal t') (day_key cal t)) dates) groups) by (apply group_spec; exists t; split; [exact Ht|reflexivity]).
        destruct (group_head _ Hg) as (_ & H2 & H3). destruct (filter _ dates) as [|x g] eqn:Eg; [congruence|].
        apply day_file. intros t' Ht'. destruct (H3 t' (or_intror Ht')). apply input_path_key; auto.
        apply Hd. exact (proj1 (H3 x (or_introl eq_refl))).
      - rewrite A; [reflexivity|]. intros C'. unfold names in C'. apply in_map_iff in C'. destruct C' as (g & E' & Hg).
        destruct (group_head g Hg) as (H1 & _). apply (Hn _ H1). symmetry. exact E'. }
    exists fs'. split; [exact R|]. split.
    - intros t Ht. rewrite F. destruct (E (input_path cal dir t)) as [[t' [Ht' Q]]|Hn]; [|exfalso; eapply Hn; eauto].
      apply input_path_key in Q; auto. rewrite Q. reflexivity.
    - intros name Hn. rewrite F. destruct (E name) as [[t [Ht ->]]|_]; [exfalso; eapply Hn; eauto|reflexivity].
  Qed.
End Workers.

(** ** Specification *)
(** the times to be preprocessed all have four-digit years *)
Definition prep_dated (c : prepcfg) : Prop := forall t, In t (input_dates c) -> four_digit_year (pc_cal c) t.
(** [fs'] holds the results of preprocessing: one file per calendar day with exactly the times
    of that day, in order, and otherwise what was in [fs] *)
Definition preprocessed {N : NumOps} (data : Z -> slice N) (c : prepcfg) (fs fs' : folder N) : Prop :=
  (forall t, In t (input_dates c) -> fs' (input_path (pc_cal c) (pc_dir c) t) =
     Some (map (fun t' => (t', data t')) (filter (fun t' => Z.eqb (t' / (24 * 60 * 60 * 1000000)) (t / (24 * 60 * 60 * 1000000))) (input_dates c)))) /\
  (forall name, (forall t, In t (input_dates c) -> name <> input_path (pc_cal c) (pc_dir c) t) -> fs' name = fs name).

Lemma filter_day_key cal dates t : (forall t, In t dates -> four_digit_year cal t) -> In t dates ->
  filter (fun t' => Z.eqb (day_key cal t') (day_key cal t)) dates = filter (fun t' => Z.eqb (t' / day_us) (t / day_us)) dates.
Proof.
  intros Hd Ht. apply filter_ext_in. intros t' Ht'. pose proof (day_key_date cal t' t (Hd t' Ht') (Hd t Ht)) as K.
  destruct (Z.eqb_spec (day_key cal t') (day_key cal t)), (Z.eqb_spec (t' / day_us) (t / day_us)); tauto.
Qed.

(** C53: which times are preprocessed.  From start to end in steps of the input frequency,
    in order. *)
Theorem C53_input_times c :
  0 < pc_freq c -> (60 * 1000000 | pc_start c) -> (60 * 1000000 | pc_freq c) ->
  (forall t, In t (input_dates c) <-> exists k, 0 <= k /\ t = pc_start c + k * pc_freq c /\ t <= pc_end c) /\
  StronglySorted Z.lt (input_dates c).
Proof.
  intros Hf [s Es] [f Ef].
  assert (Q : input_dates c = cftime_range (pc_start c) (pc_end c) (pc_freq c)).
  { unfold input_dates, cftime_range. rewrite map_map. apply map_ext. intros k. unfold round_nearest, minute_us, usec.
    assert (D : (60 * 1000000 | pc_start c + Z.of_nat k * pc_freq c)) by (exists (s + Z.of_nat k * f); rewrite Es, Ef; ring).
    rewrite (proj2 (Z.mod_divide (pc_start c + Z.of_nat k * pc_freq c) (60 * 1000000) ltac:(lia)) D). cbn [Z.ltb Z.eqb orb andb].
    change (60 * 1000000 / 2 <? 0) with false. change (0 =? 60 * 1000000 / 2) with false. cbn [orb andb].
    destruct D as [q ->]. rewrite Z.div_mul by lia. reflexivity. }
  rewrite Q. clear Q. unfold cftime_range. split.
  - intros t. rewrite in_map_iff. split.
    + intros (k & <- & Hk). apply in_seq in Hk. exists (Z.of_nat k). split; [lia|]. split; [reflexivity|].
      assert (Hk' : Z.of_nat k <= (pc_end c - pc_start c) / pc_freq c) by lia.
      pose proof (Z.mul_div_le (pc_end c - pc_start c) (pc_freq c) Hf). nia.
    + intros (k & Hk & -> & Hle). exists (Z.to_nat k). rewrite Z2Nat.id by lia. split; [reflexivity|]. apply in_seq.
      assert (k <= (pc_end c - pc_start c) / pc_freq c) by (apply Z.div_le_lower_bound; lia). lia.
  - generalize (Z.to_nat ((pc_end c - pc_start c) / pc_freq c + 1)) as n. intros n. generalize O as b. induction n; intros b; cbn [seq map]; constructor; [apply IHn|].
    apply Forall_forall. intros t Ht. apply in_map_iff in Ht. destruct Ht as (k & <- & Hk). apply in_seq in Hk. nia.
Qed.
(** In general every time is the whole minute next to such a time. *)
Theorem C53_input_times_rounded c t : In t (input_dates c) ->
  exists k, 0 <= k /\ (60 * 1000000 | t) /\ -30 * 1000000 <= t - (pc_start c + k * pc_freq c) <= 30 * 1000000.
Proof.
  unfold input_dates, cftime_range. rewrite map_map, in_map_iff. intros (k & <- & _). exists (Z.of_nat k). split; [lia|].
  set (x := pc_start c + Z.of_nat k * pc_freq c). clearbody x. unfold round_nearest, minute_us, usec. change (60 * 1000000 / 2) with 30000000.
  pose proof (Z.div_mod x (60 * 1000000) ltac:(lia)). pose proof (Z.mod_pos_bound x (60 * 1000000) ltac:(lia)).
  destruct (Z.ltb_spec 30000000 (x mod (60 * 1000000))); cbn [orb]; [split; [eexists; reflexivity|lia]|].
  destruct (_ && _)%bool eqn:E; [|split; [eexists; reflexivity|lia]]. apply andb_true_iff in E. destruct E as [E _]. apply Z.eqb_eq in E. split; [eexists; reflexivity|lia].
Qed.

(** C53: whatever the folder held before and however the days are interleaved, preprocessing
    succeeds and leaves exactly the day files; in particular the sequential and every parallel
    run leave the same files. *)
Theorem C53_day_files_complete_any_schedule {N : NumOps} (data : Z -> slice N) c fs l :
  prep_dated c -> schedule (workers c) l -> exists fs', acts data l fs = OK fs' /\ preprocessed data c fs fs'.
Proof.
  intros Hd S. destruct (schedule_result data (pc_cal c) (pc_dir c) (input_dates c) Hd l fs S) as (fs' & R & A & B).
  exists fs'. split; [exact R|]. split; [|exact B]. intros t Ht. rewrite (A t Ht). change (24 * 60 * 60 * 1000000) with day_us.
  rewrite filter_day_key by auto. reflexivity.
Qed.
Lemma preprocessed_unique {N : NumOps} (data : Z -> slice N) c fs0 fs1 fs2 fs3 :
  (forall name, (forall t, In t (input_dates c) -> name <> input_path (pc_cal c) (pc_dir c) t) -> fs1 name = fs0 name) ->
  preprocessed data c fs0 fs2 -> preprocessed data c fs1 fs3 -> forall name, fs2 name = fs3 name.
Proof.
  intros H [A B] [A' B'] name.
  assert (E : (exists t, In t (input_dates c) /\ name = input_path (pc_cal c) (pc_dir c) t) \/ forall t, In t (input_dates c) -> name <> input_path (pc_cal c) (pc_dir c) t).
  { generalize (input_dates c). induction l as [|t l IH]; [right; intros t []|].
    destruct (string_dec name (input_path (pc_cal c) (pc_dir c) t)) as [Q|Q]; [left; exists t; split; [now left|exact Q]|].
    destruct IH as [[t' [H1 H2]]|H1]; [left; exists t'; split; [now right|exact H2]|right]. intros t' [<-|H']; auto. }
  destruct E as [(t & Ht & ->)|E]; [now rewrite A, A'|]. rewrite B, B' by auto. symmetry. auto.
Qed.
Theorem C53_parallel_equals_sequential {N : NumOps} (data : Z -> slice N) c fs l fs1 fs2 :
  prep_dated c -> schedule (workers c) l ->
  acts data l fs = OK fs1 -> acts data (sequential (workers c)) fs = OK fs2 -> forall name, fs1 name = fs2 name.
Proof.
  intros Hd S R1 R2.
  destruct (C53_day_files_complete_any_schedule data c fs l Hd S) as (f1 & E1 & P1). rewrite R1 in E1. injection E1 as <-.
  destruct (C53_day_files_complete_any_schedule data c fs _ Hd (sequential_is_schedule (workers c))) as (f2 & E2 & P2). rewrite R2 in E2. injection E2 as <-.
  eapply preprocessed_unique; [|exact P1|exact P2]. auto.
Qed.

(** C54: the run was interrupted after the writes [l1] of some schedule; files with writes
    still to come may hold anything (a write can be torn).  Running preprocessing again, with
    any schedule, gives the same folder as an uninterrupted run. *)
Theorem C54_rerun_after_crash {N : NumOps} (data : Z -> slice N) c fs0 l1 l2 fs1 crashed l fs2 l' fs3 :
  prep_dated c ->
  schedule (workers c) (l1 ++ l2) -> acts data l1 fs0 = OK fs1 ->
  (forall name, crashed name = fs1 name \/ exists a, In a l2 /\ target a = name) ->
  schedule (workers c) l -> acts data l crashed = OK fs2 ->          (* the run after the crash *)
  schedule (workers c) l' -> acts data l' fs0 = OK fs3 ->            (* a run without crash *)
  forall name, fs2 name = fs3 name.
Proof.
  intros Hd S1 R1 Hc S R S' R'.
  destruct (C53_day_files_complete_any_schedule data c crashed l Hd S) as (f2 & E2 & P2). rewrite R in E2. injection E2 as <-.
  destruct (C53_day_files_complete_any_schedule data c fs0 l' Hd S') as (f3 & E3 & P3). rewrite R' in E3. injection E3 as <-.
  intros name. symmetry. revert name. eapply preprocessed_unique; [|exact P3|exact P2].
  intros name Hn.
  (* nothing is written outside the day files *)
  assert (T : forall a, In a (l1 ++ l2) -> target a <> name).
  { intros a Ha. destruct (workers_private (pc_cal c) (pc_dir c) (input_dates c) Hd) as [P D].
    pose proof (schedule_filter (workers c) (l1 ++ l2) S1 (map (group_name (pc_cal c) (pc_dir c)) (day_groups (pc_cal c) (input_dates c))) (conj P D)) as [A _].
    intros E. rewrite <- E in Hn.
    assert (Hin : ~ In (target a) (map (group_name (pc_cal c) (pc_dir c)) (day_groups (pc_cal c) (input_dates c)))).
    { intros C. apply in_map_iff in C. destruct C as (g & Eg & Hg).
      destruct (group_head (pc_cal c) (input_dates c) g Hg) as (H1 & _). apply (Hn _ H1). symmetry. exact Eg. }
    specialize (A _ Hin). assert (In a (filter (on (target a)) (l1 ++ l2))).
    { apply filter_In. split; [exact Ha|]. unfold on. apply String.eqb_refl. }
    rewrite A in H. destruct H. }
  destruct (Hc name) as [E|(a & Ha & E)]; [|exfalso; apply (T a); [apply in_or_app; now right|exact E]].
  rewrite E. pose proof (acts_filewise_inv data l1 fs0 fs1 R1 name) as F.
  rewrite filter_other in F by (intros a Ha; apply T, in_or_app; now left). cbn in F. congruence.
Qed.
