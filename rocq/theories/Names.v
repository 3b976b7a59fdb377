(** * C32: output files do not overwrite each other *)
From Coq Require Import Arith Lia Bool List ZArith String Reals Lra.
From Verif Require Import Num Arr Core Track Progress Run RunSched RunProps RunInv Calendar ExampleRun.
Import ListNotations.
Local Open Scope Z_scope.

(** the names used by a run, in the order of the write_output calls (tracking/io.py l.191-199) *)
Definition file_names {N Out} (cal : calendar) (dir : string) (backward : bool) (r : loop_state N Out) : list string :=
  map (fun f => output_path cal dir backward (fst f)) (ls_files r).
(** no output time outside the years 1000 to 9999 *)
Definition dated {N Out} (cal : calendar) (r : loop_state N Out) : Prop :=
  forall f, In f (ls_files r) -> four_digit_year cal (fst f).

(** Forward and backward runs never share a name, whatever their configuration. *)
Theorem C32_directions_differ {N Out N' Out'} cal dir (r : loop_state N Out) (r' : loop_state N' Out') :
  dated cal r -> dated cal r' -> forall x, In x (file_names cal dir false r) -> ~ In x (file_names cal dir true r').
Proof.
  intros D D' x H H'. apply in_map_iff in H. apply in_map_iff in H'. destruct H as (f & E & Hf). destruct H' as (f' & E' & Hf').
  rewrite <- E' in E. apply C64_output_file_is_the_minute in E; auto. destruct E as [E _]. discriminate E.
Qed.

(** a run overwrites one of its own files exactly if two output times lie in the same minute *)
Theorem C32_collision_is_same_minute {N Out} cal dir b (r : loop_state N Out) : dated cal r ->
  NoDup (file_names cal dir b r) <-> NoDup (map (fun f => fst f / (60 * 1000000)) (ls_files r)).
Proof.
  unfold dated, file_names. induction (ls_files r) as [|f l IH]; intros D; [split; intros; constructor|].
  cbn [map]. rewrite !NoDup_cons_iff. rewrite IH by (intros; apply D; now right).
  assert (E : In (output_path cal dir b (fst f)) (map (fun f => output_path cal dir b (fst f)) l)
          <-> In (fst f / (60 * 1000000)) (map (fun f => fst f / (60 * 1000000)) l)).
  { rewrite !in_map_iff. split; intros (g & E & Hg); exists g; (split; [|exact Hg]).
    - apply C64_output_file_is_the_minute in E; [exact (proj2 E)|apply D; now right|apply D; now left].
    - apply C64_output_file_is_the_minute; [apply D; now right|apply D; now left|]. split; [reflexivity|exact E]. }
  rewrite E. reflexivity.
Qed.

Lemma NoDup_spaced {A} (g : A -> Z) (l : list A) : NoDup l ->
  (forall x y, In x l -> In y l -> x <> y -> g x / (60 * 1000000) <> g y / (60 * 1000000)) ->
  NoDup (map (fun x => g x / (60 * 1000000)) l).
Proof.
  induction 1 as [|x l Hx Hl IH]; intros H; [constructor|]. cbn. constructor.
  - intros C. apply in_map_iff in C. destruct C as (y & E & Hy).
    apply (H y x); [now right|now left|congruence|exact E].
  - apply IH. intros a b Ha Hb. apply H; now right.
Qed.
Lemma far_minutes a b k k' d : 60 * 1000000 <= d -> (k < k')%Z -> (b = a + (k' - k) * d \/ a = b + (k' - k) * d) ->
  a / (60 * 1000000) <> b / (60 * 1000000).
Proof.
  intros Hd Hk H E. assert (d <= (k' - k) * d) by nia.
  pose proof (Z.div_mod a (60 * 1000000) ltac:(lia)). pose proof (Z.div_mod b (60 * 1000000) ltac:(lia)).
  pose proof (Z.mod_pos_bound a (60 * 1000000) ltac:(lia)). pose proof (Z.mod_pos_bound b (60 * 1000000) ltac:(lia)).
  destruct H; lia.
Qed.

(** With a timestep of at least a minute every write_output call of a run gets its own file. *)
Theorem C32_forward_partial {N : NumOps} cal dir (c : runcfg N) w prev r :
  60 <= rc_timestep c -> completes (fwd_run c w prev) r -> dated cal r -> NoDup (file_names cal dir false r).
Proof.
  intros Hdt Hr D. apply C32_collision_is_same_minute; [exact D|].
  destruct (fwd_run_traj c w prev r ltac:(lia) Hr) as (init & Ei & o & a & tr & tr' & ws & T).
  rewrite (tj_files _ _ _ _ _ _ _ _ _ _ _ _ _ _ _ _ _ _ T), map_map. cbn [fst].
  apply NoDup_spaced; [apply NoDup_filter, seq_NoDup|]. intros x y _ _ Hxy.
  destruct (Z.lt_total (Z.of_nat x) (Z.of_nat y)) as [H|[H|H]]; [|lia|].
  - apply (far_minutes _ _ (Z.of_nat x) (Z.of_nat y) (rc_dt c)); [unfold rc_dt, usec; lia|exact H|]. left. unfold tfwd. ring.
  - apply (far_minutes _ _ (Z.of_nat y) (Z.of_nat x) (rc_dt c)); [unfold rc_dt, usec; lia|exact H|]. right. unfold tfwd. ring.
Qed.
Theorem C32_backward_partial {N : NumOps} cal dir (c : runcfg N) w prev r :
  60 <= rc_timestep c -> completes (bwd_run c w prev) r -> dated cal r -> NoDup (file_names cal dir true r).
Proof.
  intros Hdt Hr D. apply C32_collision_is_same_minute; [exact D|].
  destruct (bwd_run_traj c w prev r ltac:(lia) Hr) as (init & Ei & o & a & tr & tr' & ws & T).
  rewrite (tj_files _ _ _ _ _ _ _ _ _ _ _ _ _ _ _ _ _ _ T), map_map. cbn [fst].
  apply NoDup_spaced; [apply NoDup_filter, seq_NoDup|]. intros x y _ _ Hxy.
  destruct (Z.lt_total (Z.of_nat x) (Z.of_nat y)) as [H|[H|H]]; [|lia|].
  - apply (far_minutes _ _ (Z.of_nat x) (Z.of_nat y) (rc_dt c)); [unfold rc_dt, usec; lia|exact H|]. right. unfold tbwd. ring.
  - apply (far_minutes _ _ (Z.of_nat y) (Z.of_nat x) (rc_dt c)); [unfold rc_dt, usec; lia|exact H|]. left. unfold tbwd. ring.
Qed.

(** C32 is false in general: the example run of 5 s with output every 2 s writes three files
    that all get the same name. *)
Theorem C32_overwrites_refuted prev : exists r,
  completes (fwd_run (ex_cfg 5 2) (ex_world (1 / 2)%R 1) prev) r /\ dated Standard r /\
  file_names Standard "out" false r = repeat "out/forwardtrack_1970-01-01T00-00.nc"%string 3.
Proof.
  destruct (run_witness_forward prev) as (r & GW & _ & _ & P & _ & Hr & Hf & _).
  destruct (ls_files r) as [|[t1 f1] [|[t2 f2] [|[t3 f3] [|]]]] eqn:E; try discriminate. injection Hf as -> -> ->.
  exists r. split; [exact Hr|]. unfold dated, file_names. rewrite E. split.
  - intros f [<-|[<-|[<-|[]]]]; exists 1970, 1, 1; (split; [unfold date_of, day_of; rewrite civil_eq, epoch_eq; vm_compute; reflexivity|discriminate]).
  - cbn [map fst]. unfold output_path, strf_day, date_of, day_of. rewrite !civil_eq, !epoch_eq. vm_compute. reflexivity.
Qed.
(** non-vacuity: a dated run with a timestep of a minute *)
Example C32_witness (prev : Z -> res (fwd_out Rnum)) :
  let c := mkruncfg Rnum 0 (180 * usec) 60 0%R false 0 (10 * usec) (120 * usec) false in
  exists r, completes (fwd_run c (ex_world 0 0) prev) r /\ dated Standard r /\
    map fst (ls_files r) = [120 * usec; 180 * usec] /\
    file_names Standard "out" false r = ["out/forwardtrack_1970-01-01T00-02.nc"; "out/forwardtrack_1970-01-01T00-03.nc"]%string.
Proof.
  cbv zeta. set (c := mkruncfg Rnum 0 (180 * usec) 60 0%R false 0 (10 * usec) (120 * usec) false).
  destruct (C25_forward_run_ends 3 3 c (ex_world 0 0) _ prev ltac:(cbn; lia) ltac:(cbn; unfold usec; lia)
    (gw_shape _ _ _ _ (ex_good 0 0 ltac:(lra) ltac:(lra))) (ex_readable 0 0 c) ltac:(discriminate)) as [r Hr].
  exists r. split; [exact Hr|].
  destruct (fwd_run_traj c (ex_world 0 0) prev r ltac:(cbn; lia) Hr) as (init & Ei & o & a & tr & tr' & ws & T).
  pose proof (tj_files _ _ _ _ _ _ _ _ _ _ _ _ _ _ _ _ _ _ T) as E.
  change (filter (written c (tfwd c)) (seq 1 (nsteps c))) with [2%nat; 3%nat] in E. cbn [map] in E.
  unfold dated, file_names. rewrite E. split.
  - intros f [<-|[<-|[]]]; exists 1970, 1, 1; (split; [unfold date_of, day_of; rewrite civil_eq, epoch_eq; vm_compute; reflexivity|discriminate]).
  - split; [reflexivity|]. cbn [map fst]. unfold output_path, strf_day, date_of, day_of. rewrite !civil_eq, !epoch_eq. vm_compute. reflexivity.
Qed.
