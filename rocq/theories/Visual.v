(** * C61: the output figure
    analysis/visualization.py l.131-156 (_plot_output).  The plotting itself, the region outline and the
    dimensions of the figure are not modelled: a figure is the field it shows. *)
From Coq Require Import Reals Lra Arith Lia Bool List ZArith String.
From Verif Require Import Num Arr Core Track Progress Run RunSched RunBody RunGen Cells Sums RunProps RunInv Restart ExampleRun Calendar Names.
Import ListNotations.
Local Open Scope list_scope.
Local Open Scope Z_scope.

(** ** Model *)
(** l.131-136: xr.cftime_range(start, end, freq, inclusive="left"): start, start + freq, ... below the end *)
Definition dates_left (start stop freq : Z) : list Z :=
  map (fun k => start + Z.of_nat k * freq) (seq 0 (Z.to_nat ((stop - start + freq - 1) / freq))).
(** l.138-141 *)
Definition figure_dates (backward : bool) (start stop freq : Z) : list Z :=
  if backward then removelast (dates_left start stop freq) else tl (dates_left start stop freq).
(** the folder after a run: the last file written under a name *)
Fixpoint in_folder {Out} (name : Z -> string) (files : list (Z * Out)) (x : string) : option Out :=
  match files with
  | [] => None
  | (t, f) :: l => match in_folder name l x with Some g => Some g | None => if String.eqb (name t) x then Some f else None end
  end.
Definition present {A} (o : option A) : bool := match o with Some _ => true | None => false end.
(** l.143-156: the files must exist and there must be one; their contents ([p]: what one file contributes to
    a cell) are added *)
Definition shown {Out} (p : Out -> nat -> nat -> R) (o : option Out) (i j : nat) : R := match o with Some f => p f i j | None => 0%R end.
Definition plot_output {Out} (cal : calendar) (dir : string) (backward : bool) (start stop freq : Z) (p : Out -> nat -> nat -> R) (folder : string -> option Out)
  : res (nat -> nat -> R) :=
  let names := map (output_path cal dir backward) (figure_dates backward start stop freq) in
  if negb (forallb (fun x => present (folder x)) names) then Err FileNotFoundError
  else match names with
       | [] => Err ValueError
       | _ => OK (fun i j => lsum (map (fun x => shown p (folder x) i j) names))
       end.
(** l.153-156: e_track, or p_track_lower + p_track_upper *)
Definition fwd_shown (f : fwd_out Rnum) (i j : nat) : R := (at_ (f_p_lower f) i j + at_ (f_p_upper f) i j)%R.
Definition bwd_shown (f : bwd_out Rnum) (i j : nat) : R := at_ (b_e_track f) i j.
Definition plot_forward cal dir (c : runcfg Rnum) (r : loop_state Rnum (fwd_out Rnum)) : res (nat -> nat -> R) :=
  plot_output cal dir false (rc_start c) (rc_end c) (rc_output_frequency c) fwd_shown (in_folder (output_path cal dir false) (ls_files r)).
Definition plot_backward cal dir (c : runcfg Rnum) (r : loop_state Rnum (bwd_out Rnum)) : res (nat -> nat -> R) :=
  plot_output cal dir true (rc_start c) (rc_end c) (rc_output_frequency c) bwd_shown (in_folder (output_path cal dir true) (ls_files r)).

(** ** Specification: what the run wrote *)
Definition total_written {Out} (p : Out -> nat -> nat -> R) (files : list (Z * Out)) (i j : nat) : R := lsum (map (fun f => p (snd f) i j) files).

(** ** Times of the files of an aligned run *)
Lemma filter_multiples q M : (0 < q)%nat -> filter (fun k => Nat.eqb (k mod q) 0) (seq 1 (M * q)) = map (fun m => (m * q)%nat) (seq 1 M).
Proof.
  intros Hq. induction M; [reflexivity|]. replace (S M * q)%nat with (M * q + q)%nat by lia. rewrite seq_app, filter_app, IHM.
  rewrite seq_snoc, map_app. f_equal. cbn [map].
  assert (G : forall d, (d < q)%nat -> filter (fun k => Nat.eqb (k mod q) 0) (seq (1 + M * q) d) = []).
  { induction d; intros Hd; [reflexivity|]. rewrite seq_snoc, filter_app, IHd by lia. cbn [filter app].
    replace (1 + M * q + d)%nat with (S d + M * q)%nat by lia. rewrite Nat.mod_add, Nat.mod_small by lia. reflexivity. }
  replace q with (S (q - 1)) at 2 by lia. rewrite seq_snoc, filter_app, G by lia. cbn [filter app].
  replace (1 + M * q + (q - 1))%nat with (S M * q)%nat by (cbn; lia). rewrite Nat.mod_mul by lia. cbn. f_equal.
Qed.
Lemma filter_ext_seq (P Q : nat -> bool) a n : (forall k, (a <= k < a + n)%nat -> P k = Q k) -> filter P (seq a n) = filter Q (seq a n).
Proof. intros H. apply filter_ext_in'. intros x Hx. apply in_seq in Hx. apply H. lia. Qed.

(** a run is aligned if its timestep divides the output frequency, and it begins and ends at output times;
    it then covers [M] output periods *)
Definition aligned {N} (c : runcfg N) (M : nat) : Prop :=
  0 < rc_timestep c /\ (rc_timestep c * 1000000 | rc_output_frequency c) /\ 0 < rc_output_frequency c /\
  (rc_output_frequency c | rc_start c) /\ rc_end c = rc_start c + Z.of_nat M * rc_output_frequency c.

Lemma aligned_written {N} (c : runcfg N) M time s : aligned c M -> (s = 1 \/ s = -1) -> (rc_output_frequency c | time 0%nat) -> (forall k, time k = time 0%nat + s * Z.of_nat k * rc_dt c) ->
  map time (filter (written c time) (seq 1 (nsteps c))) = map (fun m => time 0%nat + s * Z.of_nat m * rc_output_frequency c) (seq 1 M).
Proof.
  intros (Hdt & [qz Eq] & Hf & Hs & He) Ss [z0 E0] Ht. change (rc_timestep c * 1000000) with (rc_dt c) in *.
  assert (Hd : 0 < rc_dt c) by (unfold rc_dt, usec; lia). assert (Hq : 0 < qz) by nia.
  set (q := Z.to_nat qz). assert (Eqn : Z.of_nat q = qz) by (unfold q; lia). assert (Hq0 : (0 < q)%nat) by lia.
  assert (En : nsteps c = (M * q)%nat).
  { unfold nsteps. rewrite He, Eq. replace (rc_start c + Z.of_nat M * (qz * rc_dt c) - rc_start c) with (Z.of_nat (M * q) * rc_dt c) by (rewrite Nat2Z.inj_mul, Eqn; ring).
    rewrite Z.div_mul by lia. lia. }
  rewrite (filter_ext_seq _ (fun k => Nat.eqb (k mod q) 0)).
  - rewrite En, filter_multiples, map_map by lia. apply map_ext. intros m. rewrite Ht, Eq, Nat2Z.inj_mul, Eqn. ring.
  - intros k Hk. unfold written. rewrite En. destruct (Nat.eqb_spec k (M * q)) as [->|]; [rewrite orb_true_r, Nat.mod_mul by lia; reflexivity|].
    rewrite orb_false_r. apply eq_true_iff_eq. rewrite Z.eqb_eq, Nat.eqb_eq, Z.mod_divide, Nat.mod_divide by lia. rewrite Ht, E0, Eq. split.
    + intros [z Hz]. assert (Z.of_nat k = (s * (z - z0)) * qz).
      { apply (Z.mul_cancel_r _ _ (rc_dt c)); [lia|]. destruct Ss as [-> | ->]; lia. }
      exists (Z.to_nat (s * (z - z0))). apply Nat2Z.inj. rewrite Nat2Z.inj_mul, Eqn. rewrite Z2Nat.id by nia. exact H.
    + intros [z ->]. rewrite Nat2Z.inj_mul, Eqn. exists (z0 + s * Z.of_nat z). ring.
Qed.
Lemma dates_aligned {N} (c : runcfg N) M : aligned c M -> dates_left (rc_start c) (rc_end c) (rc_output_frequency c) = map (fun m => rc_start c + Z.of_nat m * rc_output_frequency c) (seq 0 M).
Proof.
  intros (_ & _ & Hf & _ & ->). unfold dates_left. f_equal. f_equal.
  replace (rc_start c + Z.of_nat M * rc_output_frequency c - rc_start c + rc_output_frequency c - 1) with (rc_output_frequency c - 1 + Z.of_nat M * rc_output_frequency c) by ring.
  rewrite Z.div_add, Z.div_small by lia. lia.
Qed.

(** ** Reading the files *)
Lemma in_folder_None {Out} name (l : list (Z * Out)) x : ~ In x (map (fun f => name (fst f)) l) -> in_folder name l x = None.
Proof.
  induction l as [|[t f] l IH]; [reflexivity|]. cbn. intros H. rewrite IH by tauto. destruct (String.eqb_spec (name t) x); [tauto|reflexivity].
Qed.
Lemma in_folder_Some {Out} name (l : list (Z * Out)) t f : NoDup (map (fun f => name (fst f)) l) -> In (t, f) l -> in_folder name l (name t) = Some f.
Proof.
  induction l as [|[u g] l IH]; [contradiction|]. cbn [map fst in_folder]. intros ND [[= -> ->]|H].
  - inversion ND; subst. rewrite in_folder_None by assumption. now rewrite String.eqb_refl.
  - inversion ND; subst. now rewrite IH.
Qed.
Lemma read_all {Out} name (p : Out -> nat -> nat -> R) (l l' : list (Z * Out)) i j : NoDup (map (fun f => name (fst f)) l) -> incl l' l ->
  forallb (fun x => present (in_folder name l x)) (map name (map fst l')) = true /\
  lsum (map (fun x => shown p (in_folder name l x) i j) (map name (map fst l'))) = total_written p l' i j.
Proof.
  intros ND. induction l' as [|[t f] l' IH]; intros Hi; [split; reflexivity|]. cbn [map fst forallb].
  destruct IH as [H1 H2]; [intros x Hx; apply Hi; now right|].
  rewrite (in_folder_Some name l t f ND) by (apply Hi; now left). split; [exact H1|]. unfold lsum in *. unfold total_written, lsum. cbn [fold_right map snd shown].
  rewrite H2. reflexivity.
Qed.
Lemma removelast_map {A B} (f : A -> B) l : map f (removelast l) = removelast (map f l).
Proof. induction l as [|a [|b l] IH]; [reflexivity|reflexivity|]. cbn [removelast map]. cbn [removelast map] in IH. now rewrite IH. Qed.
Lemma removelast_incl {A} (l : list A) : incl (removelast l) l.
Proof. induction l as [|a [|b l] IH]; intros x Hx; [contradiction|contradiction|]. destruct Hx as [->|Hx]; [now left|]. right. now apply IH. Qed.
Lemma removelast_seq a M : removelast (seq a (S M)) = seq a M.
Proof. rewrite seq_snoc. apply removelast_last. Qed.
Lemma lsum_rev l : lsum (rev l) = lsum l.
Proof. induction l as [|x l IH]; [reflexivity|]. cbn [rev]. rewrite lsum_app, IH. unfold lsum. cbn. lra. Qed.
Lemma map_rev_seq {A} (f : nat -> A) M : rev (map f (seq 0 M)) = map (fun m => f (M - S m)%nat) (seq 0 M).
Proof.
  induction M; [reflexivity|]. rewrite seq_snoc at 1. rewrite map_app, rev_app_distr, IHM. cbn [plus map rev app seq]. replace (S M - 1)%nat with M by lia. f_equal. rewrite <- seq_shift, map_map. apply map_ext_in. intros m Hm. apply in_seq in Hm. f_equal.
Qed.

(** ** C61 *)
(** Forward: of an aligned run over M periods the figure shows everything but the last file, that of the
    last period; a single period cannot be shown at all. *)
Theorem C61_forward_figure_partial cal dir (c : runcfg Rnum) w prev r M :
  aligned c M -> 60 <= rc_timestep c -> completes (fwd_run c w prev) r -> dated cal r ->
  map fst (ls_files r) = map (fun m => rc_start c + Z.of_nat m * rc_output_frequency c) (seq 1 M) /\
  ((M <= 1)%nat -> plot_forward cal dir c r = Err ValueError) /\
  ((2 <= M)%nat -> exists img, plot_forward cal dir c r = OK img /\ forall i j, img i j = total_written (fun (f : fwd_out Rnum) i j => at_ (f_p_lower f) i j + at_ (f_p_upper f) i j)%R (removelast (ls_files r)) i j).
Proof.
  intros Al Hdt Hr D. destruct (fwd_run_traj c w prev r ltac:(lia) Hr) as (init & Ei & o & a & tr & tr' & ws & T).
  assert (Et : map fst (ls_files r) = map (fun m => rc_start c + Z.of_nat m * rc_output_frequency c) (seq 1 M)).
  { rewrite (tj_files _ _ _ _ _ _ _ _ _ _ _ _ _ _ _ _ _ _ T), map_map. cbn [fst].
    eapply eq_trans; [apply (aligned_written c M (tfwd c) 1 Al ltac:(auto))|apply map_ext; intros; rewrite tfwd_0; ring]; [rewrite tfwd_0; apply Al|intros k; rewrite tfwd_0; unfold tfwd; ring]. }
  pose proof (C32_forward_partial cal dir c w prev r Hdt Hr D) as ND. unfold file_names in ND.
  assert (Ed : figure_dates false (rc_start c) (rc_end c) (rc_output_frequency c) = map fst (removelast (ls_files r))).
  { unfold figure_dates. rewrite (dates_aligned c M Al), removelast_map, Et, <- removelast_map. destruct M; [reflexivity|].
    rewrite removelast_seq. reflexivity. }
  split; [exact Et|]. unfold plot_forward, plot_output. rewrite Ed. split.
  - intros HM. destruct (ls_files r) as [|x [|y l]] eqn:Ef; [reflexivity|reflexivity|]. exfalso. apply (f_equal (@List.length Z)) in Et. rewrite !map_length, seq_length in Et. cbn in Et. lia.
  - intros HM. destruct (read_all _ fwd_shown (ls_files r) (removelast (ls_files r)) 0 0 ND (removelast_incl _)) as [-> _]. cbn [negb].
    destruct (map (output_path cal dir false) (map fst (removelast (ls_files r)))) as [|x l] eqn:En.
    + exfalso. apply (f_equal (@List.length string)) in En. rewrite map_length, <- Ed in En. unfold figure_dates in En. rewrite (dates_aligned c M Al) in En. destruct M as [|[|M]]; [lia|lia|discriminate En].
    + eexists. split; [reflexivity|]. intros i j. rewrite <- En. now apply read_all, removelast_incl.
Qed.
(** Backward: everything but the first file written, that of the last period. *)
Theorem C61_backward_figure_partial cal dir (c : runcfg Rnum) w prev r M :
  aligned c M -> 60 <= rc_timestep c -> completes (bwd_run c w prev) r -> dated cal r ->
  map fst (ls_files r) = map (fun m => rc_end c - Z.of_nat m * rc_output_frequency c) (seq 1 M) /\
  ((M <= 1)%nat -> plot_backward cal dir c r = Err ValueError) /\
  ((2 <= M)%nat -> exists img, plot_backward cal dir c r = OK img /\ forall i j, img i j = total_written (fun (f : bwd_out Rnum) i j => at_ (b_e_track f) i j) (tl (ls_files r)) i j).
Proof.
  intros Al Hdt Hr D. destruct (bwd_run_traj c w prev r ltac:(lia) Hr) as (init & Ei & o & a & tr & tr' & ws & T).
  assert (Et : map fst (ls_files r) = map (fun m => rc_end c - Z.of_nat m * rc_output_frequency c) (seq 1 M)).
  { rewrite (tj_files _ _ _ _ _ _ _ _ _ _ _ _ _ _ _ _ _ _ T), map_map. cbn [fst].
    eapply eq_trans; [apply (aligned_written c M (tbwd c) (-1) Al ltac:(auto))|apply map_ext; intros; rewrite tbwd_0; ring]; [|intros k; rewrite tbwd_0; unfold tbwd; ring].
    rewrite tbwd_0. destruct Al as (_ & _ & _ & [z Ez] & ->). rewrite Ez. exists (z + Z.of_nat M). ring. }
  pose proof (C32_backward_partial cal dir c w prev r Hdt Hr D) as ND. unfold file_names in ND.
  assert (Ed : figure_dates true (rc_start c) (rc_end c) (rc_output_frequency c) = map fst (rev (tl (ls_files r)))).
  { unfold figure_dates. rewrite (dates_aligned c M Al). rewrite map_rev. replace (map fst (tl (ls_files r))) with (tl (map fst (ls_files r))) by (destruct (ls_files r); reflexivity). rewrite Et.
    destruct M; [reflexivity|]. rewrite <- removelast_map, removelast_seq. cbn [seq map tl]. rewrite <- seq_shift, map_map, <- seq_shift, map_map. rewrite map_rev_seq. apply map_ext_in. intros m Hm. apply in_seq in Hm.
    destruct Al as (_ & _ & _ & _ & ->). replace (Z.of_nat (S M)) with (Z.of_nat m + Z.of_nat (S (S (M - S m)))) by lia. ring. }
  assert (Hi : incl (rev (tl (ls_files r))) (ls_files r)).
  { intros x Hx. apply in_rev in Hx. destruct (ls_files r); [contradiction|now right]. }
  split; [exact Et|]. unfold plot_backward, plot_output. rewrite Ed. split.
  - intros HM. destruct (ls_files r) as [|x [|y l]] eqn:Ef; [reflexivity|reflexivity|]. exfalso. apply (f_equal (@List.length Z)) in Et. rewrite !map_length, seq_length in Et. cbn in Et. lia.
  - intros HM. destruct (read_all _ bwd_shown (ls_files r) (rev (tl (ls_files r))) 0 0 ND Hi) as [-> _]. cbn [negb].
    destruct (map (output_path cal dir true) (map fst (rev (tl (ls_files r))))) as [|x l] eqn:En.
    + exfalso. apply (f_equal (@List.length string)) in En. rewrite map_length, <- Ed in En. unfold figure_dates in En. rewrite (dates_aligned c M Al) in En. destruct M as [|[|M]]; [lia|lia|discriminate En].
    + eexists. split; [reflexivity|]. intros i j. rewrite <- En. rewrite (proj2 (read_all _ bwd_shown (ls_files r) (rev (tl (ls_files r))) i j ND Hi)).
      unfold total_written. rewrite map_rev. apply lsum_rev.
Qed.
(** A run that does not begin at an output time (all times whole minutes): the files of the figure do not exist. *)
Theorem C61_unaligned_start_refuted cal dir (c : runcfg Rnum) w prev r :
  0 < rc_timestep c -> (60 | rc_timestep c) -> (60 * 1000000 | rc_output_frequency c) -> (60 * 1000000 | rc_start c) ->
  rc_timestep c * 1000000 <= rc_output_frequency c -> ~ (rc_output_frequency c | rc_start c) -> rc_start c + 2 * rc_output_frequency c < rc_end c ->
  completes (fwd_run c w prev) r -> dated cal r -> four_digit_year cal (rc_start c + rc_output_frequency c) ->
  plot_forward cal dir c r = Err FileNotFoundError.
Proof.
  intros Hdt [dq Edq] [fq Efq] [sq Esq] Hle Hna Hlong Hr D Y. destruct (fwd_run_traj c w prev r Hdt Hr) as (init & Ei & o & a & tr & tr' & ws & T).
  set (f := rc_output_frequency c) in *. set (s := rc_start c) in *.
  assert (Hd : 0 < rc_dt c) by (unfold rc_dt, usec; lia). change (rc_timestep c * 1000000) with (rc_dt c) in *.
  assert (Hin : In (s + f) (figure_dates false s (rc_end c) f)).
  { unfold figure_dates, dates_left. assert (2 <= (rc_end c - s + f - 1) / f) by (apply Z.div_le_lower_bound; lia).
    revert H. generalize ((rc_end c - s + f - 1) / f). intros z H. destruct (Z.to_nat z) as [|[|M]] eqn:EM; [exfalso; clear - H EM; lia|exfalso; clear - H EM; lia|]. cbn [seq map tl]. left. change (Z.of_nat 1) with 1. ring. }
  assert (Hno : in_folder (output_path cal dir false) (ls_files r) (output_path cal dir false (s + f)) = None).
  { apply in_folder_None. intros H. apply in_map_iff in H. destruct H as ([t g] & E & H). cbn [fst] in E.
    pose proof (D _ H) as Yt. cbn [fst] in Yt. apply C64_output_file_is_the_minute in E; [|exact Yt|exact Y]. destruct E as [_ E].
    rewrite (tj_files _ _ _ _ _ _ _ _ _ _ _ _ _ _ _ _ _ _ T) in H. apply in_map_iff in H. destruct H as (k & [= <- _] & H). apply filter_In in H. destruct H as [Hk Hw]. apply in_seq in Hk.
    assert (Ek : tfwd c k = s + f).
    { unfold tfwd in *. fold s in E |- *. unfold rc_dt, usec in *. rewrite Edq in *. rewrite Esq, Efq in *.
      replace (sq * (60 * 1000000) + Z.of_nat k * (dq * 60 * 1000000)) with ((sq + Z.of_nat k * dq) * (60 * 1000000)) in * by ring.
      replace (sq * (60 * 1000000) + fq * (60 * 1000000)) with ((sq + fq) * (60 * 1000000)) in * by ring. rewrite !Z.div_mul in E by lia. now rewrite E. }
    unfold written in Hw. apply orb_true_iff in Hw. destruct Hw as [Hw|Hw].
    - apply Z.eqb_eq in Hw. rewrite Ek in Hw. fold f in Hw. apply Hna. apply Z.mod_divide in Hw; [|lia]. apply (Z.divide_add_cancel_r f f s); [apply Z.divide_refl|]. rewrite Z.add_comm. exact Hw.
    - apply Nat.eqb_eq in Hw. assert (~ (k < nsteps c)%nat) by lia. rewrite nsteps_spec in H by auto. rewrite <- tfwd_S in H. rewrite Ek in H. lia. }
  unfold plot_forward, plot_output. fold s f.
  replace (forallb (fun x => present (in_folder (output_path cal dir false) (ls_files r) x)) (map (output_path cal dir false) (figure_dates false s (rc_end c) f))) with false; [reflexivity|].
  symmetry. apply not_true_iff_false. intros H. rewrite forallb_forall in H. specialize (H _ (in_map (output_path cal dir false) _ _ Hin)). now rewrite Hno in H.
Qed.
(** So the figure is the total of the run only where nothing was written in the last period. *)
Lemma total_removelast {Out} (p : Out -> nat -> nat -> R) files d i j : files <> [] -> total_written p files i j = (total_written p (removelast files) i j + p (snd (last files d)) i j)%R.
Proof. intros H. rewrite (app_removelast_last d H) at 1. unfold total_written. rewrite map_app, lsum_app. unfold lsum at 2. cbn. lra. Qed.
Theorem C61_last_period_missing_refuted cal dir (c : runcfg Rnum) w prev r M :
  aligned c M -> (2 <= M)%nat -> 60 <= rc_timestep c -> completes (fwd_run c w prev) r -> dated cal r ->
  exists img lastfile, plot_forward cal dir c r = OK img /\ In (rc_end c, lastfile) (ls_files r) /\
    forall i j, (img i j = total_written (fun (f : fwd_out Rnum) i j => at_ (f_p_lower f) i j + at_ (f_p_upper f) i j)%R (ls_files r) i j <-> (at_ (f_p_lower lastfile) i j + at_ (f_p_upper lastfile) i j)%R = 0%R).
Proof.
  intros Al HM Hdt Hr D. destruct (C61_forward_figure_partial cal dir c w prev r M Al Hdt Hr D) as (Et & _ & H). destruct (H HM) as (img & Ei & Hi). clear H.
  assert (Ne : ls_files r <> []).
  { intros E. rewrite E in Et. apply (f_equal (@List.length Z)) in Et. rewrite !map_length, seq_length in Et. cbn in Et. lia. }
  destruct (exists_last Ne) as (l & [t f] & E). exists img, f. split; [exact Ei|]. split.
  - rewrite E. apply in_or_app. right. left. f_equal. rewrite E, map_app in Et. destruct M; [lia|]. rewrite seq_snoc, map_app in Et. apply app_inj_tail in Et. destruct Et as [_ Et]. cbn in Et. rewrite Et.
    destruct Al as (_ & _ & _ & _ & ->). reflexivity.
  - intros i j. rewrite Hi, (total_removelast (fun (f : fwd_out Rnum) i j => at_ (f_p_lower f) i j + at_ (f_p_upper f) i j)%R (ls_files r) (t, f) i j Ne). rewrite E, last_last. cbn [snd]. split; intros; lra.
Qed.
(** Non-vacuity: three periods of a minute. *)
Example C61_witness (prev : Z -> res (fwd_out Rnum)) :
  let c := mkruncfg Rnum 0 (180 * usec) 60 0%R false 0 (10 * usec) (60 * usec) false in
  aligned c 3 /\ 60 <= rc_timestep c /\ exists r, completes (fwd_run c (ex_world (1/2) 1) prev) r /\ dated Standard r.
Proof.
  cbv zeta. set (c := mkruncfg Rnum 0 (180 * usec) 60 0%R false 0 (10 * usec) (60 * usec) false).
  split; [repeat split; cbn; try lia; [exists 1; reflexivity|exists 0; reflexivity]|]. split; [cbn; lia|].
  destruct (C25_forward_run_ends 3 3 c (ex_world (1/2) 1) _ prev ltac:(cbn; lia) ltac:(cbn; unfold usec; lia)
    (gw_shape _ _ _ _ (ex_good (1/2) 1 ltac:(lra) ltac:(lra))) (ex_readable (1/2) 1 c) ltac:(discriminate)) as [r Hr].
  exists r. split; [exact Hr|].
  destruct (fwd_run_traj c (ex_world (1/2) 1) prev r ltac:(cbn; lia) Hr) as (init & Ei & o & a & tr & tr' & ws & T).
  pose proof (tj_files _ _ _ _ _ _ _ _ _ _ _ _ _ _ _ _ _ _ T) as E.
  change (filter (written c (tfwd c)) (seq 1 (nsteps c))) with [1%nat; 2%nat; 3%nat] in E. cbn [map] in E.
  unfold dated. rewrite E.
  intros f [<-|[<-|[<-|[]]]]; exists 1970, 1, 1; (split; [unfold date_of, day_of; rewrite civil_eq, epoch_eq; vm_compute; reflexivity|discriminate]).
Qed.
