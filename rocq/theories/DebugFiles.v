(** * C111: the debug file of a stability warning (utils/profiling.py l.162-180)

    Every stability warning names a file that holds the field of correction factors.  The
    name contains the time of the step only, and both layers are checked in every step. *)
From Coq Require Import Reals Lra Arith Lia Bool List ZArith String.
From Verif Require Import Num Arr Core Track Progress Run RunSched RunBody RunProps RunInv Cells Stabilize Calendar ExampleRun Warnings.
Import ListNotations.
Local Open Scope Z_scope.

(** ** The model *)
(** profiling.py l.168: t.strftime("%Y%m%d-%H%M%S") *)
Definition strf_compact (c : calendar) (t : Z) : string :=
  match date_of c t with
  | Some (y, m, d) => digits 4 y ++ digits 2 m ++ digits 2 d ++ "-" ++
      digits 2 (second_of_day t / 3600) ++ digits 2 (second_of_day t / 60 mod 60) ++ digits 2 (second_of_day t mod 60)
  | None => ""
  end%string.
(** l.166, l.169: config.output_folder / "debug" / f"stability_correction_{timestamp}.nc" *)
Definition debug_path (c : calendar) (dir : string) (t : Z) : string :=
  (dir ++ "/debug/stability_correction_" ++ strf_compact c t ++ ".nc")%string.

Section Reports.
  Context {N : NumOps}.
  (** l.145: fy_corrected / fy_abs, cell by cell *)
  Definition factor_field (ca : arr N * arr N) : arr N :=
    mkarr (T := N) (nr (snd ca)) (nc (snd ca)) (fun i j => ndiv (at_ (fst ca) i j) (at_ (snd ca) i j)).
  (** A warning as the user sees it: its time, its figures, the file it names, and the
      field written to that file just before (l.171-180). *)
  Record report := mkreport { rp_time : Z; rp_warning : warning N; rp_file : string; rp_field : arr N }.
  (** l.127-180 called for one layer at time [t] *)
  Definition report_layer (cal : calendar) (dir : string) (tr : tracker N) (t : Z) (ca : arr N * arr N) : tracker N * list report :=
    let (tr', ws) := track_stability_correction tr ca in
    (tr', map (fun w => mkreport t w (debug_path cal dir t) (factor_field ca)) ws).
  (** the layers of all steps, one after the other (core.py l.138-154) *)
  Fixpoint reports (cal : calendar) (dir : string) (tr : tracker N) (l : list (Z * (arr N * arr N))) : list report :=
    match l with
    | [] => []
    | (t, ca) :: l => let (tr', rs) := report_layer cal dir tr t ca in rs ++ reports cal dir tr' l
    end.
  (** The files of a folder.  to_netcdf writes a new file or replaces the one of that name
      (xarray's default mode "w"). *)
  Definition folder := string -> option (arr N).
  Definition put (f : folder) (name : string) (a : arr N) : folder := fun s => if String.eqb s name then Some a else f s.
  Definition after (rs : list report) (old : folder) : folder := fold_left (fun f r => put f (rp_file r) (rp_field r)) rs old.
  (** the corrections of the steps k, k+1, ... with the times of these steps *)
  Fixpoint timed (time : nat -> Z) (k : nat) (corrs : list (list (arr N * arr N))) : list (Z * (arr N * arr N)) :=
    match corrs with
    | [] => []
    | l :: corrs => map (fun ca => (time k, ca)) l ++ timed time (S k) corrs
    end.
  (** the corrections of a step: of the fluxes at [t_flux] with the storages at [t_states],
      first those of the upper, then those of the lower layer (core.py l.138-154) *)
  Definition corrections_of (c : runcfg N) (w : world N) (t_flux t_states : Z) (corr : list (arr N * arr N)) : Prop :=
    exists F S F' vu vl upper lower, w_fluxes w t_flux = OK F /\ w_states w t_states = OK S /\ scale_fluxes (w_grid w) F = OK F' /\
      stabilize_level (w_grid w) (nofZ (rc_timestep c)) (fx_upper F') (fy_upper F') (s_upper S) = OK (vu, upper) /\
      stabilize_level (w_grid w) (nofZ (rc_timestep c)) (fx_lower F') (fy_lower F') (s_lower S) = OK (vl, lower) /\
      corr = [upper; lower].

  (** ** Lemmas *)
  Lemma reports_app cal dir l1 : forall tr l2, reports cal dir tr (l1 ++ l2) =
    reports cal dir tr l1 ++ reports cal dir (fst (track_levels tr (map snd l1))) l2.
  Proof.
    induction l1 as [|[t ca] l1 IH]; intros tr l2; [reflexivity|]. cbn [app map snd reports]. rewrite track_levels_cons. cbn [fst].
    unfold report_layer. destruct (track_stability_correction tr ca) as [tr' ws] eqn:E. cbn [fst]. rewrite IH, app_assoc. reflexivity.
  Qed.
  Lemma reports_memory cal dir l : forall t t' : tracker N, same_memory t t' -> reports cal dir t l = reports cal dir t' l.
  Proof.
    induction l as [|[x ca] l IH]; intros t t' M; [reflexivity|]. cbn [reports]. unfold report_layer.
    destruct (levels_memory [ca] t t' M) as [M1 M2]. rewrite !track_levels_cons in M1, M2. cbn [fst snd] in M1, M2.
    change (track_levels ?x []) with (x, @nil (warning N)) in M1, M2. cbn [fst snd] in M1, M2. rewrite !app_nil_r in M2.
    destruct (track_stability_correction t ca) as [t1 w1], (track_stability_correction t' ca) as [t2 w2]. cbn [fst snd] in *. subst w2.
    now rewrite (IH t1 t2 M1).
  Qed.
  (** the reports at one time are those of [track_levels] *)
  Lemma reports_one_time cal dir t l : forall tr, map (fun rp => (rp_time rp, rp_warning rp)) (reports cal dir tr (map (fun ca => (t, ca)) l)) =
    map (fun x => (t, x)) (snd (track_levels tr l)).
  Proof.
    induction l as [|ca l IH]; intros tr; [reflexivity|]. cbn [map reports]. rewrite track_levels_cons. unfold report_layer.
    destruct (track_stability_correction tr ca) as [tr' ws]. cbn [fst snd]. rewrite !map_app, map_map, IH. reflexivity.
  Qed.
  Lemma reports_in cal dir l : forall (tr : tracker N) rp, In rp (reports cal dir tr l) -> exists t ca, In (t, ca) l /\ rp_time rp = t /\
    rp_file rp = debug_path cal dir t /\ rp_field rp = factor_field ca /\
    rp_warning rp = mkwarning (corrected_percent (fst ca) (snd ca)) (strongest (fst ca) (snd ca)).
  Proof.
    induction l as [|[t ca] l IH]; intros tr rp H; [destruct H|]. cbn [reports] in H. unfold report_layer, track_stability_correction in H.
    destruct (decide tr _ _) as [tr' b]. apply in_app_or in H. destruct H as [H|H].
    - destruct b; [|destruct H]. destruct H as [<-|[]]. exists t, ca. repeat split. now left.
    - destruct (IH _ _ H) as (t' & ca' & H1 & H2). exists t', ca'. split; [now right|exact H2].
  Qed.
  Lemma timed_snoc time corrs l : forall k, timed time k (corrs ++ [l]) = timed time k corrs ++ map (fun ca => (time (k + List.length corrs)%nat, ca)) l.
  Proof.
    induction corrs as [|x corrs IH]; intros k; cbn [app timed List.length].
    - now rewrite app_nil_r, Nat.add_0_r.
    - rewrite IH, app_assoc. replace (k + S (List.length corrs))%nat with (S k + List.length corrs)%nat by lia. reflexivity.
  Qed.
  Lemma timed_snd time corrs : forall k, map snd (timed time k corrs) = List.concat corrs.
  Proof. induction corrs as [|x corrs IH]; intros k; [reflexivity|]. cbn [timed List.concat]. rewrite map_app, map_map, IH. f_equal. cbn. apply map_id. Qed.
  Lemma timed_in time corrs : forall k t ca, In (t, ca) (timed time k corrs) -> exists i l, nth_error corrs i = Some l /\ In ca l /\ t = time (k + i)%nat.
  Proof.
    induction corrs as [|x corrs IH]; intros k t ca H; [destruct H|]. cbn [timed] in H. apply in_app_or in H. destruct H as [H|H].
    - apply in_map_iff in H. destruct H as (ca' & [= <- <-] & H). exists 0%nat, x. rewrite Nat.add_0_r. auto.
    - destruct (IH _ _ _ H) as (i & l & E & Hl & ->). exists (S i), l. split; [exact E|]. split; [exact Hl|]. f_equal. lia.
  Qed.

  Lemma after_app rs1 rs2 old : after (rs1 ++ rs2) old = after rs2 (after rs1 old).
  Proof. unfold after. now rewrite fold_left_app. Qed.
  Lemma after_other rs : forall old name, (forall rp, In rp rs -> rp_file rp <> name) -> after rs old name = old name.
  Proof.
    induction rs as [|rp rs IH]; intros old name H; [reflexivity|]. change (after (rp :: rs) old) with (after rs (put old (rp_file rp) (rp_field rp))).
    rewrite IH by (intros x Hx; apply H; now right). unfold put. destruct (String.eqb_spec name (rp_file rp)) as [E|]; [|reflexivity].
    exfalso. exact (H rp (or_introl eq_refl) (eq_sym E)).
  Qed.
  Lemma after_last rs1 rp rs2 old : (forall x, In x rs2 -> rp_file x <> rp_file rp) -> after (rs1 ++ rp :: rs2) old (rp_file rp) = Some (rp_field rp).
  Proof.
    intros H. rewrite after_app. change (after (rp :: rs2) ?f) with (after rs2 (put f (rp_file rp) (rp_field rp))).
    rewrite after_other by exact H. unfold put. now rewrite String.eqb_refl.
  Qed.

  (** the reports of a run *)
  Lemma run_reports {Out} (c : runcfg N) init tr0 body flush stored store print time left half right r o a tr tr' ws
    (T : @traj N Out c init tr0 body flush stored store print time left half right r o a tr tr' ws) cal dir :
    same_memory tr0 tracker0 -> (forall t x, same_memory (store t x) t) ->
    forall P : nat -> list (arr N * arr N) -> Prop,
    (forall k x tx x' tx' wx, (k < nsteps c)%nat -> body k x tx = OK (x', tx', wx) -> exists corr, P k corr /\ track_levels tx corr = (tx', wx)) ->
    exists corrs, List.length corrs = nsteps c /\ (forall k l, nth_error corrs k = Some l -> P k l) /\
      map (fun rp => (rp_time rp, rp_warning rp)) (reports cal dir tracker0 (timed time 0 corrs)) = ls_warnings r.
  Proof.
    intros H0 Hst P Hb. rewrite (tj_warn _ _ _ _ _ _ _ _ _ _ _ _ _ _ _ _ _ _ T).
    assert (G : forall k, (k <= nsteps c)%nat -> exists cs, List.length cs = k /\ (forall i l, nth_error cs i = Some l -> P i l) /\
      map (fun rp => (rp_time rp, rp_warning rp)) (reports cal dir tracker0 (timed time 0 cs)) = flat_map (fun k => map (fun x => (time k, x)) (ws k)) (seq 0 k) /\
      same_memory (tr k) (fst (track_levels tracker0 (List.concat cs)))).
    { induction k; intros Hk.
      - exists []. split; [reflexivity|]. split; [intros [|i] l; discriminate|]. cbn [List.concat]. rewrite (tj_tr0 _ _ _ _ _ _ _ _ _ _ _ _ _ _ _ _ _ _ T). auto.
      - destruct (IHk ltac:(lia)) as (cs & L & PP & E & M).
        destruct (Hb k _ _ _ _ _ ltac:(lia) (tj_body _ _ _ _ _ _ _ _ _ _ _ _ _ _ _ _ _ _ T k ltac:(lia))) as (corr & Pc & Ec).
        exists (cs ++ [corr]). split; [rewrite app_length, L; cbn; lia|]. split.
        { intros i l Hi. destruct (Nat.lt_ge_cases i k) as [Hlt|Hge]; [apply PP; rewrite <- Hi; symmetry; apply nth_error_app1; lia|].
          rewrite nth_error_app2 in Hi by lia. destruct (i - List.length cs)%nat as [|q] eqn:Q; [|destruct q; discriminate Hi].
          cbn in Hi. injection Hi as <-. replace i with k by lia. exact Pc. }
        destruct (levels_memory corr _ _ M) as [M1 M2]. rewrite Ec in M1, M2. cbn [fst snd] in M1, M2. split.
        + rewrite timed_snoc, reports_app, map_app, E, timed_snd, seq_snoc, flat_map_app, L. f_equal. cbn [flat_map plus]. rewrite app_nil_r.
          rewrite reports_one_time, <- M2. reflexivity.
        + rewrite concat_app. cbn [List.concat]. rewrite app_nil_r, levels_app. cbn [fst snd].
          rewrite (tj_store _ _ _ _ _ _ _ _ _ _ _ _ _ _ _ _ _ _ T k ltac:(lia)). destruct (written c time (S k)); [|exact M1].
          destruct (Hst (tr' (S k)) (a (S k))) as [S1 S2]. destruct M1 as [M1a M1b]. split; congruence. }
    destruct (G (nsteps c) ltac:(lia)) as (cs & L & PP & E & _). exists cs. auto.
  Qed.
End Reports.
Arguments report : clear implicits.
Arguments folder : clear implicits.

(** ** The names *)
Lemma ymd_compact_inj y m d y' m' d' x x' : 1 <= y <= 9999 -> 1 <= m <= 12 -> 1 <= d <= 31 -> 1 <= y' <= 9999 -> 1 <= m' <= 12 -> 1 <= d' <= 31 ->
  (digits 4 y ++ digits 2 m ++ digits 2 d ++ x = digits 4 y' ++ digits 2 m' ++ digits 2 d' ++ x')%string ->
  y = y' /\ m = m' /\ d = d' /\ x = x'.
Proof.
  intros ? ? ? ? ? ? H.
  apply append_inj in H; [|rewrite !digits_length; reflexivity]. destruct H as [Q1 H].
  apply append_inj in H; [|rewrite !digits_length; reflexivity]. destruct H as [Q2 H].
  apply append_inj in H; [|rewrite !digits_length; reflexivity]. destruct H as [Q3 H].
  apply digits_inj in Q1; [|cbn; lia|cbn; lia]. apply digits_inj in Q2; [|cbn; lia|cbn; lia]. apply digits_inj in Q3; [|cbn; lia|cbn; lia].
  auto.
Qed.
Lemma hms_compact_inj t t' :
  (digits 2 (second_of_day t / 3600) ++ digits 2 (second_of_day t / 60 mod 60) ++ digits 2 (second_of_day t mod 60) =
   digits 2 (second_of_day t' / 3600) ++ digits 2 (second_of_day t' / 60 mod 60) ++ digits 2 (second_of_day t' mod 60))%string ->
  second_of_day t = second_of_day t'.
Proof.
  intros Q. apply append_inj in Q; [|rewrite !digits_length; reflexivity]. destruct Q as [Q1 Q].
  apply append_inj in Q; [|rewrite !digits_length; reflexivity]. destruct Q as [Q2 Q3].
  apply strf_second_inj. unfold strf_second. now rewrite Q1, Q2, Q3.
Qed.
Lemma debug_path_inj c dir t t' : four_digit_year c t -> four_digit_year c t' ->
  debug_path c dir t = debug_path c dir t' <-> t / usec = t' / usec.
Proof.
  intros (y & m & d & E & _) (y' & m' & d' & E' & _). split.
  - unfold debug_path. intros H. apply append_inj in H; [|reflexivity]. destruct H as [_ H]. apply append_inj in H; [|reflexivity]. destruct H as [_ H].
    apply append_inj_r in H; [|reflexivity]. destruct H as [H _]. unfold strf_compact in H. rewrite E, E' in H.
    apply date_of_civil in E. apply date_of_civil in E'.
    destruct (civil_bounds _ _ _ _ _ E) as (? & ? & ?). destruct (civil_bounds _ _ _ _ _ E') as (? & ? & ?).
    apply ymd_compact_inj in H; auto. destruct H as (-> & -> & -> & H). apply append_inj in H; [|reflexivity]. destruct H as [_ H].
    apply same_second. split; [|now apply hms_compact_inj]. apply day_of_inj with c. exact (civil_inj _ _ _ _ E E').
  - intros H. apply same_second in H. destruct H as [H1 H2]. unfold debug_path, strf_compact, date_of, day_of. now rewrite H1, H2.
Qed.

(** ** Specification *)
Section Spec.
  Context {N : NumOps}.
  (** the report of a correction: the figures of the warning and the field in the file are
      those of the same fluxes, and the file is the one for the time of the step *)
  Definition describes (cal : calendar) (dir : string) (t : Z) (rp : report N) (ca : arr N * arr N) : Prop :=
    rp_time rp = t /\ rp_file rp = debug_path cal dir t /\
    rp_warning rp = mkwarning (corrected_percent (fst ca) (snd ca)) (strongest (fst ca) (snd ca)) /\
    nr (rp_field rp) = nr (snd ca) /\ nc (rp_field rp) = nc (snd ca) /\
    forall i j, at_ (rp_field rp) i j = ndiv (at_ (fst ca) i j) (at_ (snd ca) i j).
  (** the file named by a warning holds the field of that warning *)
  Definition field_kept (rs : list (report N)) (old : folder N) (rp : report N) : Prop :=
    after rs old (rp_file rp) = Some (rp_field rp).
  (** what holds of the reports [rs] of steps with corrections [corrs] at times [time] *)
  Record honest (cal : calendar) (dir : string) (time : nat -> Z) (corrs : list (list (arr N * arr N))) (rs : list (report N)) (old : folder N) : Prop := {
    (* every warning describes a correction of its step *)
    ho_described : forall rp, In rp rs -> exists k l ca, nth_error corrs k = Some l /\ In ca l /\ describes cal dir (time k) rp ca;
    (* the last warning of every step has its field in its file *)
    ho_last : forall rs1 rp rs2, rs = rs1 ++ rp :: rs2 -> (forall x, In x rs2 -> rp_time x <> rp_time rp) -> field_kept rs old rp;
    (* only a warning about the upper layer can be followed by one of the same step, and that is about the lower layer *)
    ho_later : forall rs1 rp rs2 x, rs = rs1 ++ rp :: rs2 -> In x rs2 -> rp_time x = rp_time rp ->
      exists k upper lower, nth_error corrs k = Some [upper; lower] /\ describes cal dir (time k) rp upper /\ describes cal dir (time k) x lower;
    (* no other file is touched *)
    ho_others : forall name, (forall rp, In rp rs -> rp_file rp <> name) -> after rs old name = old name }.

  Lemma reports_describe cal dir l (tr : tracker N) rp : In rp (reports cal dir tr l) -> exists t ca, In (t, ca) l /\ describes cal dir t rp ca.
  Proof.
    intros H. destruct (reports_in _ _ _ _ _ H) as (t & ca & H1 & H2 & H3 & H4 & H5). exists t, ca. split; [exact H1|].
    unfold describes. rewrite H4. repeat split; auto.
  Qed.
  Lemma fop_app {A} (R : A -> A -> Prop) l1 l2 : ForallOrdPairs R l1 -> ForallOrdPairs R l2 -> (forall x y, In x l1 -> In y l2 -> R x y) -> ForallOrdPairs R (l1 ++ l2).
  Proof.
    induction 1 as [|x l1 H H1 IH]; intros H2 H3; [exact H2|]. cbn [app]. constructor.
    - apply Forall_app. split; [exact H|]. apply Forall_forall. intros y Hy. apply H3; [now left|exact Hy].
    - apply IH; [exact H2|]. intros a b Ha Hb. apply H3; [now right|exact Hb].
  Qed.
  Lemma fop_split {A} (R : A -> A -> Prop) l1 x l2 y : ForallOrdPairs R (l1 ++ x :: l2) -> In y l2 -> R x y.
  Proof.
    induction l1 as [|z l1 IH]; cbn [app]; intros H Hy; inversion H as [|? ? H1 H2]; subst; [|auto].
    rewrite Forall_forall in H1. auto.
  Qed.
  Lemma layer_short cal dir (tr : tracker N) t ca : snd (report_layer cal dir tr t ca) = [] \/ exists rp, snd (report_layer cal dir tr t ca) = [rp] /\ describes cal dir t rp ca.
  Proof.
    unfold report_layer, track_stability_correction. destruct (decide tr _ _) as [tr' [|]]; [right|now left].
    cbn [snd map]. eexists. split; [reflexivity|]. repeat split.
  Qed.
  Lemma same_time_pairs cal dir time : (forall i k : nat, time i = time k -> i = k) -> forall corrs k0 tr,
    (forall l, In l corrs -> exists u w, l = [u; w]) ->
    ForallOrdPairs (fun rp x => rp_time x = rp_time rp -> exists k upper lower, nth_error corrs k = Some [upper; lower] /\
      describes cal dir (time (k0 + k)%nat) rp upper /\ describes cal dir (time (k0 + k)%nat) x lower) (reports cal dir tr (timed (N := N) time k0 corrs)).
  Proof.
    intros Hinj. induction corrs as [|l corrs IH]; intros k0 tr Hl; [constructor|]. cbn [timed]. rewrite reports_app.
    destruct (Hl l (or_introl eq_refl)) as (u & w & ->). apply fop_app.
    - cbn [map reports]. destruct (report_layer cal dir tr (time k0) u) as [tr1 r1] eqn:E1. destruct (report_layer cal dir tr1 (time k0) w) as [tr2 r2] eqn:E2.
      pose proof (layer_short cal dir tr (time k0) u) as S1. rewrite E1 in S1. cbn [snd] in S1.
      pose proof (layer_short cal dir tr1 (time k0) w) as S2. rewrite E2 in S2. cbn [snd] in S2.
      rewrite app_nil_r. destruct S1 as [->|(a & -> & Da)], S2 as [->|(b & -> & Db)]; cbn [app]; repeat constructor.
      intros _. exists 0%nat, u, w. rewrite Nat.add_0_r. repeat split; apply Da || apply Db.
    - specialize (IH (S k0) (fst (track_levels tr (map snd (map (fun ca => (time k0, ca)) [u; w])))) ltac:(intros l' H'; apply Hl; now right)).
      generalize dependent (reports cal dir (fst (track_levels tr (map snd (map (fun ca => (time k0, ca)) [u; w])))) (timed time (S k0) corrs)).
      intros rs. induction 1 as [|x rs H H1 IH1]; constructor; [|exact IH1]. eapply Forall_impl; [|exact H]. intros y Hy E.
      destruct (Hy E) as (k & up & lo & A & B & C). exists (S k), up, lo. replace (k0 + S k)%nat with (S k0 + k)%nat by lia. auto.
    - intros x y Hx Hy E. exfalso. destruct (reports_describe _ _ _ _ _ Hx) as (t & ca & H1 & H2 & _). destruct (reports_describe _ _ _ _ _ Hy) as (t' & ca' & H1' & H2' & _).
      apply in_map_iff in H1. destruct H1 as (z & [= <- <-] & _). destruct (timed_in _ _ _ _ _ H1') as (i & l' & _ & _ & ->).
      rewrite H2, H2' in E. apply Hinj in E. lia.
  Qed.
  Lemma reports_honest cal dir time corrs old :
    (forall i k : nat, time i = time k -> i = k) -> (forall i k : nat, time i / usec = time k / usec -> i = k) ->
    (forall l, In l corrs -> exists u w, l = [u; w]) ->
    let rs := reports cal dir tracker0 (timed (N := N) time 0 corrs) in
    (forall rp, In rp rs -> four_digit_year cal (rp_time rp)) -> honest cal dir time corrs rs old.
  Proof.
    intros Hinj Hsec Hl rs Hy.
    assert (D : forall rp, In rp rs -> exists k l ca, nth_error corrs k = Some l /\ In ca l /\ describes cal dir (time k) rp ca).
    { intros rp H. destruct (reports_describe _ _ _ _ _ H) as (t & ca & H1 & H2). destruct (timed_in _ _ _ _ _ H1) as (i & l & E & Hc & ->). exists i, l, ca. auto. }
    constructor.
    - exact D.
    - intros rs1 rp rs2 E H. unfold field_kept. rewrite E. apply after_last. intros x Hx Q.
      assert (I1 : In x rs) by (rewrite E; apply in_or_app; right; now right). assert (I2 : In rp rs) by (rewrite E; apply in_or_app; right; now left).
      pose proof (Hy x I1) as Y1. pose proof (Hy rp I2) as Y2.
      destruct (D x I1) as (k & _ & _ & _ & _ & T1 & F1 & _). destruct (D rp I2) as (k' & _ & _ & _ & _ & T2 & F2 & _).
      rewrite F1, F2 in Q. rewrite T1 in Y1. rewrite T2 in Y2. apply debug_path_inj in Q; auto. apply Hsec in Q. apply (H x Hx). congruence.
    - intros rs1 rp rs2 x E Hx Et. pose proof (same_time_pairs cal dir time Hinj corrs 0 tracker0 Hl) as P. fold rs in P. rewrite E in P.
      exact (fop_split _ _ _ _ _ P Hx Et).
    - intros name H. now apply after_other.
  Qed.
  Lemma two_layers (c : runcfg N) w t t' l : corrections_of c w t t' l -> exists u v, l = [u; v].
  Proof. intros (F & S & F' & vu & vl & u & v & _ & _ & _ & _ & _ & ->). eauto. Qed.
  Lemma corrections_run (c : runcfg N) w t t' F S G corr : w_fluxes w t = OK F -> w_states w t' = OK S ->
    (do F' <- scale_fluxes (w_grid w) F; stabilize_fluxes (w_grid w) (nofZ (rc_timestep c)) F' S) = OK (G, corr) -> corrections_of c w t t' corr.
  Proof.
    intros EF ES E. destruct (scale_fluxes (w_grid w) F) as [F'|] eqn:Es; [|discriminate]. cbn [bind] in E. unfold stabilize_fluxes in E.
    destruct (stabilize_level _ _ (fx_upper F') _ _) as [[vu u]|] eqn:E1; [|discriminate]. cbn [bind] in E.
    destruct (stabilize_level _ _ (fx_lower F') _ _) as [[vl v]|] eqn:E2; [|discriminate]. cbn [bind] in E.
    destruct vu as [a1 a2], vl as [b1 b2]. injection E as _ <-. exists F, S, F', (a1, a2), (b1, b2), u, v. repeat split; auto.
  Qed.

  (** ** Theorems *)
  (** The reports of a forward run.  Missing for the full property: a warning about the
      upper layer loses its field if the lower layer warns in the same step. *)
  Theorem C111_forward_partial (c : runcfg N) w prev r cal dir old : 0 < rc_timestep c -> completes (fwd_run c w prev) r ->
    (forall x, In x (ls_warnings r) -> four_digit_year cal (fst x)) ->
    exists corrs, List.length corrs = List.length (ls_steps r) /\
      let time := fun k => rc_start c + Z.of_nat k * (rc_timestep c * 1000000) in
      (forall k l, nth_error corrs k = Some l -> corrections_of c w (time k + rc_timestep c * 1000000 / 2) (time k) l) /\
      let rs := reports cal dir tracker0 (timed time 0 corrs) in
      map (fun rp => (rp_time rp, rp_warning rp)) rs = ls_warnings r /\ honest cal dir time corrs rs old.
  Proof.
    intros Hdt Hr Hy. destruct (fwd_run_traj c w prev r Hdt Hr) as (init & Ei & o & a & tr & tr' & ws & T).
    rewrite (tj_steps _ _ _ _ _ _ _ _ _ _ _ _ _ _ _ _ _ _ T), map_length, seq_length.
    destruct (run_reports c _ _ _ _ _ _ _ _ _ _ _ _ _ _ _ _ _ T cal dir ltac:(split; reflexivity) ltac:(intros t x; split; reflexivity)
      (fun k l => corrections_of c w (tfwd c k + rc_dt c / 2) (tfwd c k) l)) as (corrs & L & P & E).
    { intros k x tx x' tx' wx _ H. destruct (fwd_body_levels _ _ _ _ _ _ _ _ _ _ H) as (F & S0 & G & corr & E1 & E2 & E3 & E). exists corr. split; [|exact E].
      exact (corrections_run c w _ _ F S0 G corr E1 E2 E3). }
    exists corrs. split; [exact L|]. cbv zeta. split; [exact P|]. split; [exact E|]. apply reports_honest.
    - intros i k H. nia.
    - intros i k H. change (rc_timestep c * 1000000) with (rc_timestep c * usec) in H. rewrite !Z.mul_assoc, !Z.div_add in H by (unfold usec; lia). nia.
    - intros l Hl. apply In_nth_error in Hl. destruct Hl as [k Hk]. exact (two_layers _ _ _ _ _ (P k l Hk)).
    - intros rp H. apply (Hy (rp_time rp, rp_warning rp)). rewrite <- E. apply in_map_iff. exists rp. auto.
  Qed.
  Theorem C111_backward_partial (c : runcfg N) w prev r cal dir old : 0 < rc_timestep c -> completes (bwd_run c w prev) r ->
    (forall x, In x (ls_warnings r) -> four_digit_year cal (fst x)) ->
    exists corrs, List.length corrs = List.length (ls_steps r) /\
      let time := fun k => rc_end c - Z.of_nat k * (rc_timestep c * 1000000) in
      (forall k l, nth_error corrs k = Some l -> corrections_of c w (time k - rc_timestep c * 1000000 / 2) (time k) l) /\
      let rs := reports cal dir tracker0 (timed time 0 corrs) in
      map (fun rp => (rp_time rp, rp_warning rp)) rs = ls_warnings r /\ honest cal dir time corrs rs old.
  Proof.
    intros Hdt Hr Hy. destruct (bwd_run_traj c w prev r Hdt Hr) as (init & Ei & o & a & tr & tr' & ws & T).
    rewrite (tj_steps _ _ _ _ _ _ _ _ _ _ _ _ _ _ _ _ _ _ T), map_length, seq_length.
    destruct (run_reports c _ _ _ _ _ _ _ _ _ _ _ _ _ _ _ _ _ T cal dir ltac:(split; reflexivity) ltac:(intros t x; split; reflexivity)
      (fun k l => corrections_of c w (tbwd c k - rc_dt c / 2) (tbwd c k) l)) as (corrs & L & P & E).
    { intros k x tx x' tx' wx _ H. destruct (bwd_body_levels _ _ _ _ _ _ _ _ _ _ H) as (F & S0 & G & corr & E1 & E2 & E3 & E). exists corr. split; [|exact E].
      exact (corrections_run c w _ _ F S0 G corr E1 E2 E3). }
    exists corrs. split; [exact L|]. cbv zeta. split; [exact P|]. split; [exact E|]. apply reports_honest.
    - intros i k H. nia.
    - intros i k H. change (rc_timestep c * 1000000) with (rc_timestep c * usec) in H.
      replace (rc_end c - Z.of_nat i * (rc_timestep c * usec)) with (rc_end c + (- (Z.of_nat i * rc_timestep c)) * usec) in H by ring.
      replace (rc_end c - Z.of_nat k * (rc_timestep c * usec)) with (rc_end c + (- (Z.of_nat k * rc_timestep c)) * usec) in H by ring.
      rewrite !Z.div_add in H by (unfold usec; lia). nia.
    - intros l Hl. apply In_nth_error in Hl. destruct Hl as [k Hk]. exact (two_layers _ _ _ _ _ (P k l Hk)).
    - intros rp H. apply (Hy (rp_time rp, rp_warning rp)). rewrite <- E. apply in_map_iff. exists rp. auto.
  Qed.
End Spec.
(** Two warnings share their file exactly if their times lie in the same second. *)
Theorem C111_file_is_the_second c dir t t' : four_digit_year c t -> four_digit_year c t' ->
  debug_path c dir t = debug_path c dir t' <-> t / 1000000 = t' / 1000000.
Proof. exact (debug_path_inj c dir t t'). Qed.

(** ** The counterexample: both layers are corrected in the first step *)
Local Open Scope R_scope.
Definition storm_fluxes : fluxes Rnum := mkfluxes Rnum (cst 1) (cst 4) (cst 1) (cst 4) (cst 0) (cst 0).
Definition storm : world Rnum :=
  mkworld Rnum (fun _ => OK ex_states) (fun _ => OK storm_fluxes) unit_grid (fun _ => 1) (fun _ => OK (cst 1)).
Lemma storm_shape : world_shape 3 3 storm (fun _ _ _ => 1).
Proof.
  constructor; cbn; auto; try lia.
  - intros t S E. injection E as <-. repeat split.
  - intros t F E. injection E as <-. repeat split.
  - intros t. left. eexists. repeat split.
Qed.
Lemma storm_completes : exists r, completes (fwd_run (ex_cfg 1 1) storm (fun _ => Err OtherError)) r.
Proof.
  eapply (C25_forward_run_ends 3 3).
  - cbn. lia. - cbn. unfold usec. lia. - exact storm_shape. - intros t _. split; eexists; reflexivity. - discriminate.
Qed.
Lemma nanmin_const (x : R) (l : list Rnum) : l <> [] -> (forall y, In y l -> y = x) -> nanmin l = Some (x : Rnum).
Proof.
  intros H0 H. unfold nanmin.
  assert (G : forall (l : list Rnum) acc, (forall y, In y l -> y = x) -> acc = Some (x : Rnum) \/ (acc = None /\ l <> []) ->
    fold_left (fun acc y => if nisnan y then acc else match acc with None => Some y | Some z => Some (if nlt y z then y else z) end) l acc = Some (x : Rnum)).
  { clear. induction l as [|y l IH]; intros acc Hl Ha; cbn [fold_left].
    - destruct Ha as [Ha|[_ Ha]]; [exact Ha|congruence].
    - rewrite Rnisnan. rewrite (Hl y (or_introl eq_refl)). apply IH; [intros z Hz; apply Hl; now right|]. left.
      destruct Ha as [->|[-> _]]; [|reflexivity]. now destruct (nlt (N := Rnum) x x). }
  apply G; [exact H|]. now right.
Qed.
Lemma strongest_const (c a : arr Rnum) (x : R) : shaped a 3 3 ->
  (forall i j, (i < 3)%nat -> (j < 3)%nat -> at_ c i j / at_ a i j = x) -> strongest c a = Some (x : Rnum).
Proof.
  intros [Hr Hc] H. unfold strongest. rewrite Hr, Hc. apply nanmin_const; [discriminate|]. intros y Hy. unfold block in Hy.
  apply in_flat_map in Hy. destruct Hy as (i & Hi & Hy). apply in_map_iff in Hy. destruct Hy as (j & <- & Hj). apply in_seq in Hi, Hj. apply (H i j); lia.
Qed.
Lemma warns (tr : tracker Rnum) (ca : arr Rnum * arr Rnum) (x : R) : strongest (fst ca) (snd ca) = Some (x : Rnum) -> x < tr_prev_factor tr / (11 / 10) ->
  exists tr' w, track_stability_correction tr ca = (tr', [w]) /\ tr_prev_factor tr' = x.
Proof.
  intros E H. unfold track_stability_correction, decide. rewrite E.
  replace (nlt (N := Rnum) x (ndiv (tr_prev_factor tr) n11)) with true.
  2:{ symmetry. change (Rltb x (tr_prev_factor tr / (11 / 10)) = true). unfold Rltb. destruct (Rlt_dec x (tr_prev_factor tr / (11 / 10))) as [|Q]; [reflexivity|]. exfalso. exact (Q H). }
  eexists. eexists. split; reflexivity.
Qed.
Lemma reports_two {N : NumOps} cal dir (tr : tracker N) t u v tr1 w1 tr2 w2 :
  track_stability_correction tr u = (tr1, [w1]) -> track_stability_correction tr1 v = (tr2, [w2]) ->
  reports cal dir tr (timed (fun k => t k) 0 [[u; v]]) =
    [mkreport (t 0%nat) w1 (debug_path cal dir (t 0%nat)) (factor_field u); mkreport (t 0%nat) w2 (debug_path cal dir (t 0%nat)) (factor_field v)].
Proof. intros H1 H2. cbn [timed map app reports]. unfold report_layer. rewrite H1. cbn [map app]. rewrite H2. reflexivity. Qed.
Lemma storm_factor (f : R) : 1 <= f -> @stab2_abs Rnum 1 1 (f * 1) (f * 1) 1 / Rabs (f * 1 * 1) = 1 / (4 * f).
Proof.
  intros Hf. unfold stab2_abs. cbv zeta. rewrite nmin_R.
  assert (G : forall g : R, 1 <= g -> Rmin (Rabs g) (1 / 2 * Rabs g / (Rabs g + Rabs g) * (1 * 1)) / Rabs g = 1 / (4 * g)).
  { intros g Hg. rewrite Rabs_pos_eq by lra. replace (1 / 2 * g / (g + g) * (1 * 1)) with (1 / 4) by (field; lra). rewrite Rmin_right by lra. field. lra. }
  replace (1 / (4 * f)) with (1 / (4 * (f * 1 * 1))) by (field; lra). apply (G (f * 1 * 1)). lra.
Qed.
(** One step in which both layers are corrected: the first warning names a file that
    holds the field of the second. *)
Theorem C111_overwritten_refuted : exists (c : runcfg Rnum) w prev r cal,
  (0 < rc_timestep c)%Z /\ completes (fwd_run c w prev) r /\ (forall x, In x (ls_warnings r) -> four_digit_year cal (fst x)) /\
  forall dir old, exists corrs, List.length corrs = List.length (ls_steps r) /\
    let time := fun k => (rc_start c + Z.of_nat k * (rc_timestep c * 1000000))%Z in
    (forall k l, nth_error corrs k = Some l -> corrections_of c w (time k + rc_timestep c * 1000000 / 2)%Z (time k) l) /\
    let rs := reports cal dir tracker0 (timed time 0 corrs) in
    map (fun rp => (rp_time rp, rp_warning rp)) rs = ls_warnings r /\
    exists rp field, In rp rs /\ ~ field_kept rs old rp /\ after rs old (rp_file rp) = Some field /\
      at_ (rp_field rp) 1 1 = 1 / 4 /\ at_ field 1 1 = 1 / 16.
Proof.
  destruct storm_completes as [r Hr]. exists (ex_cfg 1 1), storm, (fun _ => Err OtherError), r, Standard.
  split; [cbn; lia|]. split; [exact Hr|].
  destruct (fwd_run_traj (ex_cfg 1 1) storm _ r ltac:(cbn; lia) Hr) as (init & Ei & o & a & tr & tr' & ws & T).
  assert (Hn : nsteps (ex_cfg 1 1) = 1%nat) by (unfold nsteps, ex_cfg, rc_dt, usec; cbn; reflexivity).
  assert (Hy : forall x, In x (ls_warnings r) -> four_digit_year Standard (fst x)).
  { intros x Hx. rewrite (tj_warn _ _ _ _ _ _ _ _ _ _ _ _ _ _ _ _ _ _ T), Hn in Hx. cbn [seq flat_map] in Hx. rewrite app_nil_r in Hx.
    apply in_map_iff in Hx. destruct Hx as (y & <- & _). cbn [fst]. exists 1970%Z, 1%Z, 1%Z. split; [|lia].
    unfold tfwd, date_of, day_of. rewrite civil_eq, epoch_eq. vm_compute. reflexivity. }
  split; [exact Hy|]. intros dir old.
  destruct (C111_forward_partial (ex_cfg 1 1) storm _ r Standard dir old ltac:(cbn; lia) Hr Hy) as (corrs & L & P & E & _).
  exists corrs. split; [exact L|]. cbv zeta. split; [exact P|]. split; [exact E|].
  rewrite (tj_steps _ _ _ _ _ _ _ _ _ _ _ _ _ _ _ _ _ _ T), map_length, seq_length, Hn in L.
  destruct corrs as [|l [|? ?]]; try discriminate L. specialize (P 0%nat l eq_refl). destruct P as (F & S & F' & vu & vl & u0 & v0 & EF & ES & EF' & EG1 & EG2 & ->).
  injection EF as <-. injection ES as <-.
  destruct (scale_ok 3 3 storm _ storm_shape storm_fluxes ltac:(repeat split)) as (F1 & E1 & HF1 & _ & _ & C1).
  rewrite EF' in E1. injection E1 as <-.
  destruct (stabilize_fluxes_cells unit_grid (1 : Rnum) F' ex_states 3 3 eq_refl HF1 ltac:(repeat split))
    as (F2 & cu & cl & du & dl & E2 & _ & Scu & Scl & Sdu & Sdl & _ & _ & C2).
  change (w_grid storm) with unit_grid in EG1, EG2. change (nofZ (rc_timestep (ex_cfg 1 1))) with (1 : Rnum) in EG1, EG2.
  unfold stabilize_fluxes in E2. rewrite EG1, EG2 in E2. cbn [bind] in E2. destruct vu, vl. injection E2 as _ -> ->.
  assert (Fu : forall i j, (i < 3)%nat -> (j < 3)%nat -> at_ cu i j / at_ du i j = 1 / 4).
  { intros i j Hi Hj. destruct (C1 i j Hi Hj) as (A1 & A2 & _ & _). destruct (C2 i j Hi Hj) as (_ & _ & _ & _ & B1 & B2 & _ & _).
    rewrite B1, B2, A1, A2. rewrite <- (Rmult_1_r 4). exact (storm_factor 1 ltac:(lra)). }
  assert (Fl : forall i j, (i < 3)%nat -> (j < 3)%nat -> at_ cl i j / at_ dl i j = 1 / 16).
  { intros i j Hi Hj. destruct (C1 i j Hi Hj) as (_ & _ & A1 & A2). destruct (C2 i j Hi Hj) as (_ & _ & _ & _ & _ & _ & B1 & B2).
    rewrite B1, B2, A1, A2. replace (1 / 16) with (1 / (4 * 4)) by field. exact (storm_factor 4 ltac:(lra)). }
  destruct (warns tracker0 (cu, du) (1 / 4) (strongest_const cu du (1 / 4) Sdu Fu) ltac:(cbn; lra)) as (tr1 & w1 & Q1 & P1).
  destruct (warns tr1 (cl, dl) (1 / 16) (strongest_const cl dl (1 / 16) Sdl Fl) ltac:(rewrite P1; lra)) as (tr2 & w2 & Q2 & _).
  assert (A : forall (rs : list (report Rnum)) t, rs = [mkreport t w1 (debug_path Standard dir t) (factor_field (cu, du)); mkreport t w2 (debug_path Standard dir t) (factor_field (cl, dl))] ->
    exists rp field, In rp rs /\ ~ field_kept rs old rp /\ after rs old (rp_file rp) = Some field /\ at_ (rp_field rp) 1 1 = 1 / 4 /\ at_ field 1 1 = 1 / 16).
  { intros rs t ->. eexists. exists (factor_field (cl, dl)). split; [now left|].
    assert (B : after [mkreport t w1 (debug_path Standard dir t) (factor_field (cu, du)); mkreport t w2 (debug_path Standard dir t) (factor_field (cl, dl))] old (debug_path Standard dir t)
      = Some (factor_field (cl, dl))) by (unfold after, put; cbn [fold_left rp_file rp_field]; now rewrite String.eqb_refl).
    split; [|split; [exact B|split; [exact (Fu 1%nat 1%nat ltac:(lia) ltac:(lia))|exact (Fl 1%nat 1%nat ltac:(lia) ltac:(lia))]]].
    unfold field_kept. cbn [rp_file rp_field]. rewrite B. intros Q.
    apply (f_equal (fun z : option (arr Rnum) => match z with Some z => at_ z 1 1 | None => n0 end)) in Q.
    pose proof (Fu 1%nat 1%nat ltac:(lia) ltac:(lia)) as X. pose proof (Fl 1%nat 1%nat ltac:(lia) ltac:(lia)) as Y.
    assert (Z1 : (1 / 4 : R) = 1 / 16) by (transitivity (at_ cu 1 1 / at_ du 1 1); [symmetry; exact X|]; transitivity (at_ cl 1 1 / at_ dl 1 1); [symmetry; exact Q|exact Y]). lra. }
  exact (A _ _ (reports_two Standard dir tracker0 _ (cu, du) (cl, dl) tr1 w1 tr2 w2 Q1 Q2)).
Qed.
