(** * C113: the visualize commands
    analysis/visualization.py l.69-110 (_plot_input), l.113-170 (_plot_output), l.173-232 (the three figures);
    cli.py l.228-285.  What is loaded by config.py l.540-562: the dates are cftime objects.
    Not modelled: the plotting (a figure is the field it shows), the log file. *)
From Coq Require Import Reals Lra Arith Lia Bool List ZArith String Ascii.
From Verif Require Import Num Arr Core Track Progress Run RunSched RunBody RunGen Cells Sums RunProps RunInv ExampleRun Calendar Names DateText Config Visual Cli.
Import ListNotations.
Local Open Scope list_scope.
Local Open Scope Z_scope.

(** ** Model *)
(** the date objects that occur: pandas timestamps, and the cftime classes of utils/calendar.py l.16-23 *)
Inductive pydate := Timestamp (t : Z) | Cftime (c : calendar) (t : Z).
(** pandas: Timestamp(x); a timestamp is a count of nanoseconds in 64 bits, and nothing but pandas', numpy's and
    datetime's dates (and text and numbers) is converted *)
Definition ns_range (t : Z) : bool := (- 2 ^ 63 <? t * 1000) && (t * 1000 <? 2 ^ 63).
Definition to_timestamp (d : pydate) : res Z :=
  match d with
  | Timestamp t => if ns_range t then OK t else Err OtherError
  | Cftime _ _ => Err TypeError
  end.
(** pandas: date_range(start, end, freq, inclusive="left") begins by making timestamps of its ends *)
Definition pd_date_range (start stop : pydate) (freq : Z) : res (list Z) :=
  do a <- to_timestamp start; do b <- to_timestamp stop; OK (dates_left a b freq).
(** xarray: cftime_range(start, end, freq, inclusive="left"), of cftime dates of one calendar *)
Definition xr_cftime_range (start stop : pydate) (freq : Z) : res (list Z) :=
  match start, stop with
  | Cftime _ a, Cftime _ b => OK (dates_left a b freq)
  | _, _ => Err TypeError
  end.
(** the entries of the configuration the figures use; the dates are objects *)
Record figcfg := mkfigcfg {
  g_cal : calendar; g_backward : bool; g_output : string; g_input : string; g_freq : Z;
  g_tracking_start : pydate; g_tracking_end : pydate; g_tagging_start : pydate; g_tagging_end : pydate }.
(** config.py l.540-562: the dates of a configuration that is loaded are the objects cftime_from_iso returns *)
Definition loaded (cfg : config) (backward : bool) (output input : string) (freq : Z) : figcfg :=
  mkfigcfg (cal cfg) backward output input freq
    (Cftime (cal cfg) (t_tracking_start cfg)) (Cftime (cal cfg) (t_tracking_end cfg))
    (Cftime (cal cfg) (t_tagging_start cfg)) (Cftime (cal cfg) (t_tagging_end cfg)).
(** a file of preprocessed data: its times and the rate (precipitation or evaporation) at each *)
Definition rates_file := list (Z * (nat -> nat -> R)).
(** l.93-97: the files of dates[:-1], one after the other; without files open_mfdataset raises OSError *)
Fixpoint read_all {A} (folder : string -> option (list A)) (names : list string) : res (list A) :=
  match names with
  | [] => OK []
  | x :: l => do a <- match folder x with Some a => OK a | None => Err FileNotFoundError end;
              do b <- read_all folder l; OK (a ++ b)
  end.
Definition open_mfdataset {A} (folder : string -> option (list A)) (names : list string) : res (list A) :=
  match names with [] => Err OtherError | _ => read_all folder names end.
(** l.98-101: sel(time=slice(start, end)), both ends included *)
Definition sel {A} (a b : Z) (l : list (Z * A)) : list (Z * A) := filter (fun x => (a <=? fst x) && (fst x <=? b)) l.
Definition instant (d : pydate) : Z := match d with Timestamp t => t | Cftime _ t => t end.
Definition figure := (nat -> nat -> R)%type.
(** l.69-110 (_plot_input); [region]: the tagging region as loaded (l.75-88) *)
Definition fig_input (g : figcfg) (region : res figure) (folder : string -> option rates_file) : res figure :=
  do r <- region;
  do dates <- pd_date_range (g_tagging_start g) (g_tagging_end g) (g_freq g);
  do ds <- open_mfdataset folder (map (input_path (g_cal g) (g_input g)) (removelast dates));
  OK (plot_input (map snd (sel (instant (g_tagging_start g)) (instant (g_tagging_end g)) ds)) r).
(** l.113-170 (_plot_output): the region, the dates, the files ([Visual.plot_output]) *)
Definition fig_output {Out} (g : figcfg) (region : res figure) (p : Out -> nat -> nat -> R) (folder : string -> option Out) : res figure :=
  do _ <- region;
  do _ <- xr_cftime_range (g_tracking_start g) (g_tracking_end g) (g_freq g);
  plot_output (g_cal g) (g_output g) (g_backward g) (instant (g_tracking_start g)) (instant (g_tracking_end g)) (g_freq g) p folder.
(** l.173-232: a figure is saved when all its panels are drawn; the command leaves these files (name, panels) *)
Definition saved := list (string * list figure).
Definition visualize_input g region folder : res saved :=
  do x <- fig_input g region folder; OK [((g_output g ++ "/figures/input_event.png")%string, [x])].
Definition visualize_output {Out} g region (p : Out -> nat -> nat -> R) out : res saved :=
  do x <- fig_output g region p out; OK [((g_output g ++ "/figures/cumulative_sources.png")%string, [x])].
Definition visualize_both {Out} g region folder (p : Out -> nat -> nat -> R) out : res saved :=
  do x <- fig_input g region folder; do y <- fig_output g region p out;
  OK [((g_output g ++ "/figures/summary_subplots.png")%string, [x; y])].

(** ** C113 *)
(** Whatever the configuration that is accepted, the tagging region, the data: `visualize input` fails; if the
    region can be loaded it is a TypeError. *)
Theorem C113_input_never_refuted s cfg backward output input freq region folder : load_config s = OK cfg ->
  (exists e, visualize_input (loaded cfg backward output input freq) region folder = Err e) /\
  (forall r, region = OK r -> visualize_input (loaded cfg backward output input freq) region folder = Err TypeError).
Proof. intros _. split; [|intros r ->; reflexivity]. destruct region as [r|e]; eexists; reflexivity. Qed.
(** So does `visualize both`, and the panel that could be drawn is lost with it. *)
Theorem C113_both_never_refuted {Out} s cfg backward output input freq region folder (p : Out -> nat -> nat -> R) out : load_config s = OK cfg ->
  (exists e, visualize_both (loaded cfg backward output input freq) region folder p out = Err e) /\
  (forall r, region = OK r -> visualize_both (loaded cfg backward output input freq) region folder p out = Err TypeError).
Proof. intros _. split; [|intros r ->; reflexivity]. destruct region as [r|e]; eexists; reflexivity. Qed.

(** `visualize output`, after a forward or a backward run with the configured dates, aligned and over at least two output periods,
    saves one figure in the output folder, the sum of the files but that of the last period (C61). *)
Definition run_of (cfg : config) (freq : Z) (c : runcfg Rnum) : Prop :=
  rc_start c = t_tracking_start cfg /\ rc_end c = t_tracking_end cfg /\ rc_output_frequency c = freq.
Theorem C113_output_forward_partial s cfg output input freq region reg (c : runcfg Rnum) w prev r M :
  load_config s = OK cfg -> region = OK reg -> run_of cfg freq c -> aligned c M -> (2 <= M)%nat -> 60 <= rc_timestep c ->
  completes (fwd_run c w prev) r -> dated (cal cfg) r ->
  exists img, visualize_output (loaded cfg false output input freq) region fwd_shown (in_folder (output_path (cal cfg) output false) (ls_files r))
                = OK [((output ++ "/figures/cumulative_sources.png")%string, [img])] /\
    forall i j, img i j = total_written (fun (f : fwd_out Rnum) i j => at_ (f_p_lower f) i j + at_ (f_p_upper f) i j)%R (removelast (ls_files r)) i j.
Proof.
  intros _ -> (S & E & F) Al HM H60 Hr D. destruct (C61_forward_figure_partial (cal cfg) output c w prev r M Al H60 Hr D) as (_ & _ & K).
  destruct (K HM) as (img & Ei & H). exists img. split; [|exact H].
  unfold visualize_output, fig_output, loaded. cbn [bind g_cal g_output g_backward g_freq g_tracking_start g_tracking_end instant xr_cftime_range].
  unfold plot_forward in Ei. rewrite S, E, F in Ei. rewrite Ei. reflexivity.
Qed.
Theorem C113_output_backward_partial s cfg output input freq region reg (c : runcfg Rnum) w prev r M :
  load_config s = OK cfg -> region = OK reg -> run_of cfg freq c -> aligned c M -> (2 <= M)%nat -> 60 <= rc_timestep c ->
  completes (bwd_run c w prev) r -> dated (cal cfg) r ->
  exists img, visualize_output (loaded cfg true output input freq) region bwd_shown (in_folder (output_path (cal cfg) output true) (ls_files r))
                = OK [((output ++ "/figures/cumulative_sources.png")%string, [img])] /\
    forall i j, img i j = total_written (fun (f : bwd_out Rnum) i j => at_ (b_e_track f) i j) (tl (ls_files r)) i j.
Proof.
  intros _ -> (S & E & F) Al HM H60 Hr D. destruct (C61_backward_figure_partial (cal cfg) output c w prev r M Al H60 Hr D) as (_ & _ & K).
  destruct (K HM) as (img & Ei & H). exists img. split; [|exact H].
  unfold visualize_output, fig_output, loaded. cbn [bind g_cal g_output g_backward g_freq g_tracking_start g_tracking_end instant xr_cftime_range].
  unfold plot_backward in Ei. rewrite S, E, F in Ei. rewrite Ei. reflexivity.
Qed.

(** It is the kind of the dates that makes it fail: with the same dates as pandas timestamps (in their range, 1678 to 2262), the
    region loaded and the files of the days there, the input figure is saved. *)
Theorem C113_timestamps_would_do g a b reg folder :
  g_tagging_start g = Timestamp a -> g_tagging_end g = Timestamp b -> Z.abs a * 1000 < 2 ^ 63 -> Z.abs b * 1000 < 2 ^ 63 ->
  0 < g_freq g -> a + g_freq g < b -> (forall t, a <= t < b -> exists f, folder (input_path (g_cal g) (g_input g) t) = Some f) ->
  exists img, visualize_input g (OK reg) folder = OK [((g_output g ++ "/figures/input_event.png")%string, [img])].
Proof.
  intros Ea Eb Ra Rb Hf Hab Hall. assert (Na : ns_range a = true) by (unfold ns_range; apply andb_true_intro; split; apply Z.ltb_lt; lia).
  assert (Nb : ns_range b = true) by (unfold ns_range; apply andb_true_intro; split; apply Z.ltb_lt; lia). unfold visualize_input, fig_input. cbn [bind]. rewrite Ea, Eb. unfold pd_date_range, to_timestamp. rewrite Na, Nb. cbn [bind instant].
  set (f := g_freq g) in *. set (D := removelast (dates_left a b f)).
  assert (Hin : forall t, In t D -> a <= t < b).
  { intros t Ht. assert (Ht' : In t (dates_left a b f)).
    { unfold D in Ht. clear - Ht. induction (dates_left a b f) as [|x l IH]; [destruct Ht|]. destruct l as [|y l]; [destruct Ht|]. cbn [removelast] in Ht. destruct Ht as [->|Ht]; [now left|right; now apply IH]. }
    unfold dates_left in Ht'. apply in_map_iff in Ht' as (k & <- & Hk). apply in_seq in Hk.
    pose proof (Z.div_mod (b - a + f - 1) f ltac:(lia)). pose proof (Z.mod_pos_bound (b - a + f - 1) f Hf).
    assert (Z.of_nat k <= (b - a + f - 1) / f - 1) by lia. split; [nia|]. nia. }
  assert (Hne : D <> []).
  { unfold D, dates_left. assert (2 <= (b - a + f - 1) / f) by (apply Z.div_le_lower_bound; lia).
    destruct (Z.to_nat ((b - a + f - 1) / f)) as [|[|n]] eqn:En; [lia|lia|]. cbn [seq map removelast]. discriminate. }
  assert (R : forall l, (forall t, In t l -> a <= t < b) -> exists ds, read_all folder (map (input_path (g_cal g) (g_input g)) l) = OK ds).
  { induction l as [|t l IH]; intros Hl; [eexists; reflexivity|]. cbn [map read_all]. destruct (Hall t (Hl t (or_introl eq_refl))) as [x ->]. cbn [bind].
    destruct (IH (fun t' H => Hl t' (or_intror H))) as [ds ->]. cbn [bind]. eexists. reflexivity. }
  destruct (R D Hin) as [ds Eds]. unfold open_mfdataset. destruct (map (input_path (g_cal g) (g_input g)) D) as [|x l] eqn:Em.
  - destruct D; [congruence|discriminate].
  - rewrite Eds. cbn [bind]. eexists. reflexivity.
Qed.

(** Non-vacuity: a configuration that is accepted, and a run with its dates for which `visualize output` makes the figure while
    `visualize input` and `visualize both` fail. *)
Definition vis_settings : settings :=
  let a := "1970-01-01T00:00"%string in let b := "1970-01-01T00:03"%string in
  mksettings None a b a b a b (Box (mkbox (Fin 0) (Fin 0) (Fin 1) (Fin 1))) None.
Lemma unit_box : valid_box (mkbox (Fin 0) (Fin 0) (Fin 1) (Fin 1)).
Proof. exists 0%R, 0%R, 1%R, 1%R. split; [reflexivity|]. lra. Qed.
Lemma ex_midnight : cftime_from_iso Standard "1970-01-01T00:00" = OK 0 /\ cftime_from_iso Standard "1970-01-01T00:03" = OK (180 * usec).
Proof.
  assert (D : forall t, t = 0 \/ t = 180 * usec -> date_of Standard t = Some (1970, 1, 1)).
  { intros t [-> | ->]; unfold date_of, day_of; rewrite civil_eq, epoch_eq; vm_compute; reflexivity. }
  assert (E : forall t, t = 0 \/ t = 180 * usec -> cftime_from_iso Standard (export_date Standard t) = OK t).
  { intros t Ht. apply C43_round_trip_partial; [exists 1970, 1, 1; split; [now apply D|lia]|]. destruct Ht as [-> | ->]; reflexivity. }
  split; [rewrite <- (E 0) by auto|rewrite <- (E (180 * usec)) by auto]; f_equal; unfold export_date, strf_day; rewrite D by auto; reflexivity.
Qed.
Theorem C113_case (prev : Z -> res (fwd_out Rnum)) input reg folder :
  exists cfg c r img, load_config vis_settings = OK cfg /\ run_of cfg (60 * usec) c /\ completes (fwd_run c (ex_world (1/2) 1) prev) r /\
    let g := loaded cfg false "out"%string input (60 * usec) in
    let files := in_folder (output_path (cal cfg) "out"%string false) (ls_files r) in
    visualize_output g (OK reg) fwd_shown files = OK [("out/figures/cumulative_sources.png"%string, [img])] /\
    visualize_input g (OK reg) folder = Err TypeError /\
    visualize_both g (OK reg) folder fwd_shown files = Err TypeError.
Proof.
  assert (L : load_config vis_settings = OK (mkconfig Standard 0 (180 * usec) 0 (180 * usec) 0 (180 * usec) (Box (mkbox (Fin 0) (Fin 0) (Fin 1) (Fin 1))) None)).
  { apply C42_accepted_configurations. cbn [calendar_entry vis_settings cal t_tracking_start t_tracking_end t_tagging_start t_tagging_end t_preprocess_start t_preprocess_end
      c_tagging_region c_tracking_domain tracking_start tracking_end tagging_start tagging_end preprocess_start preprocess_end tagging_region tracking_domain].
    split; [reflexivity|]. destruct ex_midnight as [A B].
    split; [repeat (apply conj); first [exact A|exact B]|]. split; [unfold usec; lia|]. split; [split; [reflexivity|exact unit_box]|]. split; [reflexivity|exact Logic.I]. }
  destruct (C61_witness prev) as (Al & H60 & r & Hr & D).
  set (c := mkruncfg Rnum 0 (180 * usec) 60 0%R false 0 (10 * usec) (60 * usec) false) in *.
  destruct (C113_output_forward_partial vis_settings _ "out"%string input (60 * usec) (OK reg) reg c (ex_world (1/2) 1) prev r 3 L eq_refl ltac:(repeat split) Al ltac:(lia) H60 Hr D)
    as (img & E & _).
  eexists _, c, r, img. split; [exact L|]. split; [repeat split|]. split; [exact Hr|]. cbv zeta. split; [exact E|]. split; reflexivity.
Qed.
