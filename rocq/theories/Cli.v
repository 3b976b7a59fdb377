(** * C63, C72, C74: the command line and the input figure
    cli.py l.63-65 (_copy_config_yaml), l.88-111 (track); config.py (tracking_direction is one of the two
    words); tracking/io.py l.28-31 and l.158-164; analysis/visualization.py l.83-103. *)
From Coq Require Import Reals Lra Arith Lia Bool List ZArith String.
From Verif Require Import Num Arr Core Track Progress Run RunSched RunBody RunGen Cells Sums RunProps RunInv Calendar Names Period ExampleRun.
Import ListNotations.
Local Open Scope list_scope.
Local Open Scope Z_scope.

(** ** Model of the command *)
(** what the configuration says: the direction as text, the output folder, and the settings of the run *)
Record experiment {N : NumOps} := mkexp { e_direction : string; e_output : string; e_run : runcfg N }.
Arguments experiment : clear implicits.
(** config.py: Literal["forward", "backward"] *)
Definition validate_direction (s : string) : res string := if (String.eqb s "forward" || String.eqb s "backward")%bool then OK s else Err ValueError.
(** io.py l.30: the prefix of the output files *)
Definition mode (direction : string) : string := if String.eqb direction "backward" then "backtrack" else "forwardtrack".
(** io.py l.28-31 *)
Definition exp_output_path (cal : calendar) (dir direction : string) (t : Z) : string :=
  (dir ++ "/" ++ mode direction ++ "_" ++ (strf_day cal t ++ "T" ++ strf_minute t) ++ ".nc")%string.
(** io.py l.158-164 *)
Definition exp_time_bnds (direction : string) (freq t : Z) : Z * Z := if String.eqb direction "forward" then (t - freq, t) else (t + freq, t).
(** a finished run: the names and the contents of the files it wrote *)
Inductive outcome {N : NumOps} :=
| Backtracked (files : list (string * (Z * Z) * bwd_out N)) (r : loop_state N (bwd_out N))
| Forwardtracked (files : list (string * (Z * Z) * fwd_out N)) (r : loop_state N (fwd_out N)).
Arguments outcome : clear implicits.
(** files as (folder, name) *)
Definition path := (string * string)%type.
(** cli.py l.63-65: shutil.copy into a folder raises SameFileError if the file is already there *)
Definition copy_config {A} (fs : path -> option A) (src : path) (folder : string) : res (path -> option A) :=
  match fs src with
  | None => Err FileNotFoundError
  | Some x => if String.eqb (fst src) folder then Err OtherError
              else OK (fun p => if (String.eqb (fst p) folder && String.eqb (snd p) (snd src))%bool then Some x else fs p)
  end.
Section Cli.
  Context {N : NumOps} (cal : calendar) (w : world N) (prevb : Z -> res (bwd_out N)) (prevf : Z -> res (fwd_out N)).
  Definition named (e : experiment N) {Out} (files : list (Z * Out)) : list (string * (Z * Z) * Out) :=
    map (fun f => (exp_output_path cal (e_output e) (e_direction e) (fst f), exp_time_bnds (e_direction e) (rc_output_frequency (e_run e)) (fst f), snd f)) files.
  (** cli.py l.102-111 *)
  Definition track (fs : path -> option (experiment N)) (src : path) (fuel : nat) : res (option (outcome N * (path -> option (experiment N)))) :=
    do e <- match fs src with Some e => OK e | None => Err FileNotFoundError end;
    do _ <- validate_direction (e_direction e);
    do fs' <- copy_config fs src (e_output e);
    if String.eqb (e_direction e) "backward" then
      do r <- bwd_run (e_run e) w prevb fuel;
      OK (match r with Some r => Some (Backtracked (named e (ls_files r)) r, fs') | None => None end)
    else
      do r <- fwd_run (e_run e) w prevf fuel;
      OK (match r with Some r => Some (Forwardtracked (named e (ls_files r)) r, fs') | None => None end).
End Cli.

(** ** C63 *)
Definition backtrack_name dir s : Prop := exists d, s = (dir ++ "/backtrack_" ++ d)%string.
Definition forwardtrack_name dir s : Prop := exists d, s = (dir ++ "/forwardtrack_" ++ d)%string.
(** Whatever comes out of the track command: the direction is one of the two; the run is the one of that
    direction, with the configuration in the file; its files carry the matching prefix and time bounds. *)
Theorem C63_track_runs_the_configured_direction {N : NumOps} cal (w : world N) prevb prevf fs src fuel e x fs' :
  fs src = Some e -> track cal w prevb prevf fs src fuel = OK (Some (x, fs')) ->
  (e_direction e = "backward"%string /\ exists r files, x = Backtracked files r /\ bwd_run (e_run e) w prevb fuel = OK (Some r) /\
     List.length files = List.length (ls_files r) /\
     forall k t f, nth_error (ls_files r) k = Some (t, f) -> exists n, nth_error files k = Some (n, (t + rc_output_frequency (e_run e), t), f) /\ backtrack_name (e_output e) n) \/
  (e_direction e = "forward"%string /\ exists r files, x = Forwardtracked files r /\ fwd_run (e_run e) w prevf fuel = OK (Some r) /\
     List.length files = List.length (ls_files r) /\
     forall k t f, nth_error (ls_files r) k = Some (t, f) -> exists n, nth_error files k = Some (n, (t - rc_output_frequency (e_run e), t), f) /\ forwardtrack_name (e_output e) n).
Proof.
  intros He. unfold track. rewrite He. cbn [bind]. unfold validate_direction.
  destruct (String.eqb_spec (e_direction e) "forward") as [Ef|Ef]; [|destruct (String.eqb_spec (e_direction e) "backward") as [Eb|Eb]]; cbn [orb bind].
  - destruct (copy_config fs src (e_output e)) as [f'|]; cbn [bind]; [|discriminate]. rewrite Ef. cbn [String.eqb Ascii.eqb Bool.eqb].
    destruct (fwd_run (e_run e) w prevf fuel) as [[r|]|]; cbn [bind]; try discriminate. intros [= <- _]. right. split; [reflexivity|]. eexists _, _. split; [reflexivity|]. split; [reflexivity|].
    unfold named. rewrite map_length. split; [reflexivity|]. intros k t f Hk. exists (exp_output_path cal (e_output e) (e_direction e) t). rewrite nth_error_map, Hk. cbn [option_map fst snd]. unfold exp_time_bnds. rewrite Ef.
    split; [reflexivity|]. eexists. unfold exp_output_path, mode. cbn [String.eqb Ascii.eqb Bool.eqb String.append]. reflexivity.
  - destruct (copy_config fs src (e_output e)) as [f'|]; cbn [bind]; [|discriminate]. rewrite Eb.
    destruct (bwd_run (e_run e) w prevb fuel) as [[r|]|]; cbn [bind]; try discriminate. intros [= <- _]. left. split; [reflexivity|]. eexists _, _. split; [reflexivity|]. split; [reflexivity|].
    unfold named. rewrite map_length. split; [reflexivity|]. intros k t f Hk. exists (exp_output_path cal (e_output e) (e_direction e) t). rewrite nth_error_map, Hk. cbn [option_map fst snd]. unfold exp_time_bnds. rewrite Eb.
    split; [reflexivity|]. eexists. unfold exp_output_path, mode. cbn [String.eqb Ascii.eqb Bool.eqb String.append]. reflexivity.
  - discriminate.
Qed.
(** Another direction is an error, before anything is run. *)
Theorem C63_other_directions_rejected {N : NumOps} cal (w : world N) prevb prevf fs src fuel e :
  fs src = Some e -> e_direction e <> "forward"%string -> e_direction e <> "backward"%string -> track cal w prevb prevf fs src fuel = Err ValueError.
Proof.
  intros He Hf Hb. unfold track. rewrite He. cbn [bind]. unfold validate_direction. apply String.eqb_neq in Hf. apply String.eqb_neq in Hb. now rewrite Hf, Hb.
Qed.
(** The names are those of C32. *)
Theorem C63_names_are_those_of_C32 cal dir t : exp_output_path cal dir "backward" t = output_path cal dir true t /\ exp_output_path cal dir "forward" t = output_path cal dir false t.
Proof. split; reflexivity. Qed.

(** ** C74: the configuration next to the output *)
(** After a run the configuration is found in the output folder, under its own name, and nothing else changed. *)
Theorem C74_configuration_is_copied {N : NumOps} cal (w : world N) prevb prevf fs src fuel e x fs' :
  fs src = Some e -> track cal w prevb prevf fs src fuel = OK (Some (x, fs')) ->
  fst src <> e_output e /\ fs' (e_output e, snd src) = Some e /\ forall p, p <> (e_output e, snd src) -> fs' p = fs p.
Proof.
  intros He. unfold track. rewrite He. cbn [bind]. destruct (validate_direction (e_direction e)); cbn [bind]; [|discriminate].
  destruct (copy_config fs src (e_output e)) as [f'|] eqn:C; cbn [bind]; [|discriminate]. intros H. assert (E : f' = fs').
  { destruct (String.eqb (e_direction e) "backward"); [destruct (bwd_run (e_run e) w prevb fuel) as [[r|]|]|destruct (fwd_run (e_run e) w prevf fuel) as [[r|]|]]; cbn [bind] in H; try discriminate; injection H as _ <-; reflexivity. }
  subst f'. clear H. unfold copy_config in C. rewrite He in C. destruct (String.eqb_spec (fst src) (e_output e)) as [|Hn]; [discriminate|]. injection C as <-. split; [exact Hn|]. cbn [fst snd]. rewrite !String.eqb_refl. split; [reflexivity|].
  intros [d n] Hp. cbn [fst snd]. destruct (String.eqb_spec d (e_output e)), (String.eqb_spec n (snd src)); cbn [andb]; try reflexivity. exfalso. apply Hp. congruence.
Qed.
(** But a run started from that copy always fails: the file cannot be copied onto itself. *)
Theorem C74_copy_cannot_be_used_refuted {N : NumOps} cal (w : world N) prevb prevf fs src fuel e x fs' w' prevb' prevf' fuel' :
  fs src = Some e -> track cal w prevb prevf fs src fuel = OK (Some (x, fs')) ->
  track cal w' prevb' prevf' fs' (e_output e, snd src) fuel' = Err OtherError.
Proof.
  intros He H. destruct (C74_configuration_is_copied cal w prevb prevf fs src fuel e x fs' He H) as (_ & Hc & _).
  unfold track in *. rewrite He in H. rewrite Hc. cbn [bind] in *. destruct (validate_direction (e_direction e)); [|discriminate]. cbn [bind]. unfold copy_config. rewrite Hc. cbn [fst snd]. rewrite String.eqb_refl. reflexivity.
Qed.
(** Every other copy works. *)
Theorem C74_moved_copy_repeats_the_run_partial {N : NumOps} cal (w : world N) prevb prevf fs src fuel e x fs' src' gs :
  fs src = Some e -> track cal w prevb prevf fs src fuel = OK (Some (x, fs')) -> gs src' = Some e -> fst src' <> e_output e ->
  exists gs', track cal w prevb prevf gs src' fuel = OK (Some (x, gs')).
Proof.
  intros He H Hg Hn. unfold track in *. rewrite He in H. rewrite Hg. cbn [bind] in *. destruct (validate_direction (e_direction e)); [|discriminate]. cbn [bind] in *.
  unfold copy_config in *. rewrite He in H. rewrite Hg. apply String.eqb_neq in Hn. rewrite Hn. destruct (String.eqb (fst src) (e_output e)); [discriminate|]. cbn [bind] in *.
  destruct (String.eqb (e_direction e) "backward"); [destruct (bwd_run (e_run e) w prevb fuel) as [[r|]|]|destruct (fwd_run (e_run e) w prevf fuel) as [[r|]|]]; cbn [bind] in H |- *; try discriminate; injection H as <- <-; eexists; reflexivity.
Qed.
(** Non-vacuity: the example run, started from /home/c.yaml *)
Example C63_C74_witness prevb prevf :
  let e := mkexp Rnum "forward" "out" (ex_cfg 5 2) in let fs := fun p : path => if (String.eqb (fst p) "home" && String.eqb (snd p) "c.yaml")%bool then Some e else None in
  exists fuel x fs', track Standard (ex_world (1 / 2)%R 1%R) prevb prevf fs ("home", "c.yaml")%string fuel = OK (Some (x, fs')).
Proof.
  cbv zeta. destruct (run_witness_forward prevf) as (r & _ & _ & _ & _ & _ & [fuel Hr] & _). exists fuel. eexists _, _. unfold track, validate_direction, copy_config. cbn [fst snd e_direction e_output e_run String.eqb Ascii.eqb Bool.eqb andb orb bind]. rewrite Hr. cbn [bind]. reflexivity.
Qed.

(** ** C72: the input figure *)
(** visualization.py l.96-103: the precipitation (backward) or evaporation (forward) rates in the region,
    times 3600, added over the times of the tagging period; [rates] are the fields at these times *)
Definition plot_input (rates : list (nat -> nat -> R)) (region : nat -> nat -> R) (i j : nat) : R :=
  fold_right Rplus 0%R (map (fun f => f i j * region i j * 3600)%R rates).
(** specification: the amount over periods of [freq] microseconds with these rates (per second) *)
Definition amount (freq : Z) (rates : list (nat -> nat -> R)) (region : nat -> nat -> R) (i j : nat) : R :=
  fold_right Rplus 0%R (map (fun f => f i j * region i j * (IZR freq / IZR usec))%R rates).
Theorem C72_figure_scale rates region freq i j : (freq <> 0)%Z -> plot_input rates region i j = (amount freq rates region i j * (IZR (3600 * usec) / IZR freq))%R.
Proof.
  intros Hf. assert (IZR freq <> 0)%R by (now apply IZR_neq). assert (IZR usec <> 0)%R by (apply IZR_neq; unfold usec; lia).
  unfold plot_input, amount. induction rates as [|f l IH]; cbn [map fold_right]; [ring|]. rewrite IH, mult_IZR. field. auto.
Qed.
(** right for hourly data *)
Theorem C72_hourly_partial rates region i j : plot_input rates region i j = amount (3600 * usec) rates region i j.
Proof. rewrite (C72_figure_scale rates region (3600 * usec)) by (unfold usec; lia). field. apply IZR_neq. unfold usec. lia. Qed.
(** and for no other frequency: the figure shows the amount times 3600 s / freq *)
Theorem C72_other_frequencies_refuted rates region freq i j : (0 < freq)%Z -> freq <> (3600 * usec)%Z -> amount freq rates region i j <> 0%R ->
  plot_input rates region i j <> amount freq rates region i j.
Proof.
  intros Hf Hn Ha E. rewrite (C72_figure_scale rates region freq) in E by lia. assert (F : (IZR freq <> 0)%R) by (apply IZR_neq; lia).
  assert (IZR (3600 * usec) / IZR freq = 1)%R.
  { apply (Rmult_eq_reg_l (amount freq rates region i j)); [|exact Ha]. rewrite E. ring. }
  assert (IZR (3600 * usec) = IZR freq)%R by (apply (Rmult_eq_reg_r (/ IZR freq)); [|now apply Rinv_neq_0_compat]; rewrite Rinv_r by exact F; exact H).
  apply eq_IZR in H0. congruence.
Qed.
Example C72_witness : amount (3 * 3600 * usec) [fun _ _ => 1%R; fun _ _ => 2%R] (fun _ _ => 1%R) 0 0 = 32400%R /\ plot_input [fun _ _ => 1%R; fun _ _ => 2%R] (fun _ _ => 1%R) 0 0 = 10800%R.
Proof. unfold amount, plot_input. cbn [map fold_right]. unfold usec. split; [|lra]. replace (IZR (3 * 3600 * 1000000) / IZR 1000000)%R with 10800%R by (rewrite !mult_IZR; field). lra. Qed.
