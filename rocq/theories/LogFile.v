(** * C114: the log file of a command
    cli.py l.34-62 (setup_logging), called by every command at l.104, l.163, l.198, l.219, l.247, l.268, l.281;
    Python's logging: FileHandler (mode "w": an existing file is emptied when the handler is made), StreamHandler,
    basicConfig (does nothing if the root logger has handlers), the handler of last resort.
    Simplified: a log file is the list of its messages; a message is its level and text; a file that is emptied while an
    earlier handler of the same process still writes to it is not modelled faithfully (the theorems exclude it). *)
From Coq Require Import Arith Lia Bool List ZArith String.
From Verif Require Import Num Arr Core Track Progress Run RunSched Calendar Names DebugFiles.
Import ListNotations.
Local Open Scope list_scope.
Local Open Scope Z_scope.

(** ** Model *)
(** levels: DEBUG 10, INFO 20, WARNING 30, ERROR 40, CRITICAL 50 *)
Record message := mkmessage { level : Z; text : string }.
Inductive handler := ToFile (path : string) | ToTerminal (threshold : Z).
(** the disk (log files only), the terminal, and the root logger of the process *)
Record machine := mkmachine { logs : string -> option (list message); terminal : list message; root_level : Z; handlers : list handler }.
Definition set_file (fs : string -> option (list message)) (p : string) (x : list message) : string -> option (list message) :=
  fun q => if String.eqb q p then Some x else fs q.
(** one handler takes a message; log files are flushed after each message *)
Definition handle (m : message) (s : machine) (h : handler) : machine :=
  match h with
  | ToFile p => mkmachine (set_file (logs s) p ((match logs s p with Some l => l | None => [] end) ++ [m])) (terminal s) (root_level s) (handlers s)
  | ToTerminal th => if th <=? level m then mkmachine (logs s) (terminal s ++ [m]) (root_level s) (handlers s) else s
  end.
(** logger.log: the loggers of the package have no level or handlers of their own; without handlers the handler
    of last resort shows warnings on the terminal *)
Definition emit (s : machine) (m : message) : machine :=
  if root_level s <=? level m then fold_left (handle m) (match handlers s with [] => [ToTerminal 30] | l => l end) s else s.
(** cli.py l.45-49: the name of the file; [now] is the local clock, read as a time without zone *)
Definition log_path (folder : string) (now : Z) : string := (folder ++ "/wam2layers_" ++ strf_compact ProlepticGregorian now ++ ".log")%string.
(** cli.py l.44-62 *)
Definition setup_logging (s : machine) (folder : string) (debug : bool) (now : Z) : machine :=
  let p := log_path folder now in
  let s := mkmachine (set_file (logs s) p []) (terminal s) (root_level s) (handlers s) in
  match handlers s with
  | [] => mkmachine (logs s) (terminal s) 10 [ToFile p; ToTerminal (if debug then 10 else 20)]
  | _ => s
  end.
(** a command: it reads the configuration (messages [c_before]), sets up logging, and does its work (messages
    [c_messages], as far as it comes before it ends or is stopped) *)
Record command := mkcommand { c_folder : string; c_debug : bool; c_now : Z; c_before : list message; c_messages : list message }.
Definition run_command (s : machine) (c : command) : machine :=
  fold_left emit (c_messages c) (setup_logging (fold_left emit (c_before c) s) (c_folder c) (c_debug c) (c_now c)).
(** a process runs commands (on the command line one, in a script several); the root logger of a new process has level WARNING and
    no handlers *)
Definition run_process (s : machine) (cs : list command) : machine :=
  fold_left run_command cs (mkmachine (logs s) (terminal s) 30 []).
Definition run_history (s : machine) (ps : list (list command)) : machine := fold_left run_process ps s.

(** ** Specification *)
(** the messages of at least a level, in order *)
Definition at_least (lv : Z) (l : list message) : list message := filter (fun m => lv <=? level m) l.
Definition own_log (c : command) : string := log_path (c_folder c) (c_now c).
Definition dated_command (c : command) : Prop := four_digit_year ProlepticGregorian (c_now c).
(** same folder and same second of the local clock *)
Definition same_slot (c c' : command) : Prop := c_folder c = c_folder c' /\ c_now c / 1000000 = c_now c' / 1000000.

(** ** Names *)
Lemma compact_inj t t' : four_digit_year ProlepticGregorian t -> four_digit_year ProlepticGregorian t' ->
  strf_compact ProlepticGregorian t = strf_compact ProlepticGregorian t' <-> t / 1000000 = t' / 1000000.
Proof.
  intros H H'. rewrite <- (debug_path_inj ProlepticGregorian "" t t' H H'). unfold debug_path. split; intros E; [now rewrite E|].
  apply append_inj in E; [|reflexivity]. destruct E as [_ E]. apply append_inj in E; [|reflexivity]. destruct E as [_ E].
  apply append_inj_r in E; [|reflexivity]. exact (proj1 E).
Qed.
Lemma compact_length t : four_digit_year ProlepticGregorian t -> String.length (strf_compact ProlepticGregorian t) = 15%nat.
Proof. intros (y & m & d & E & _). unfold strf_compact. rewrite E, !append_length, !digits_length. reflexivity. Qed.
(** Two commands write to the same log file exactly if they have the same folder and start in the same second. *)
Theorem C114_names c c' : dated_command c -> dated_command c' -> own_log c = own_log c' <-> same_slot c c'.
Proof.
  intros D D'. unfold own_log, log_path, same_slot. split.
  - intros E. apply append_inj_r in E; [|rewrite !append_length, !compact_length by assumption; reflexivity]. destruct E as [E1 E].
    apply append_inj in E; [|reflexivity]. destruct E as [_ E]. apply append_inj_r in E; [|reflexivity]. split; [exact E1|].
    apply compact_inj; [assumption|assumption|exact (proj1 E)].
  - intros [-> E]. now rewrite (proj2 (compact_inj _ _ D D') E).
Qed.

(** ** Messages *)
Lemma set_same fs p x : set_file fs p x p = Some x.
Proof. unfold set_file. now rewrite String.eqb_refl. Qed.
Lemma set_other fs p x q : q <> p -> set_file fs p x q = fs q.
Proof. intros H. unfold set_file. destruct (String.eqb_spec q p); [contradiction|reflexivity]. Qed.
Lemma at_least_app lv l l' : at_least lv (l ++ l') = at_least lv l ++ at_least lv l'.
Proof. apply filter_app. Qed.
Lemma at_least_twice a b l : a <= b -> at_least b l = at_least b (at_least a l).
Proof.
  intros H. unfold at_least. induction l as [|m l IH]; [reflexivity|]. cbn [filter]. destruct (Z.leb_spec a (level m)) as [A|A]; cbn [filter].
  - now rewrite IH.
  - destruct (Z.leb_spec b (level m)); [lia|exact IH].
Qed.
(** before logging is set up *)
Lemma emit_before l : forall s, root_level s = 30 -> handlers s = [] ->
  fold_left emit l s = mkmachine (logs s) (terminal s ++ at_least 30 l) 30 [].
Proof.
  induction l as [|m l IH]; intros [fs tm rl hs] E E'; cbn in E, E'; subst rl hs; cbn [logs terminal].
  - cbn. now rewrite app_nil_r.
  - cbn [fold_left]. unfold emit at 2. cbn [root_level handlers]. unfold at_least. cbn [filter]. destruct (Z.leb_spec 30 (level m)) as [A|A].
    + cbn [fold_left handle level]. rewrite (proj2 (Z.leb_le _ _) A). cbn [logs terminal root_level handlers]. rewrite IH by reflexivity. cbn [logs terminal]. now rewrite <- app_assoc.
    + now rewrite IH by reflexivity.
Qed.
(** after it *)
Definition ready (p : string) (th : Z) (s : machine) (l : list message) : Prop :=
  root_level s = 10 /\ handlers s = [ToFile p; ToTerminal th] /\ logs s p = Some l.
Lemma emit_after p th l : 10 <= th -> forall s x, ready p th s x ->
  let s' := fold_left emit l s in
  ready p th s' (x ++ at_least 10 l) /\ terminal s' = terminal s ++ at_least th l /\ forall q, q <> p -> logs s' q = logs s q.
Proof.
  intros Hth. induction l as [|m l IH]; intros [fs tm rl hs] x (E1 & E2 & E3); cbn in E1, E2, E3; subst rl hs; cbv zeta.
  - cbn. rewrite !app_nil_r. split; [repeat split; assumption|]. split; reflexivity.
  - cbn [fold_left]. set (s1 := emit _ m).
    assert (Q : ready p th s1 (x ++ at_least 10 [m]) /\ terminal s1 = tm ++ at_least th [m] /\ forall q, q <> p -> logs s1 q = fs q).
    { unfold s1, emit, at_least. cbn [root_level handlers filter]. destruct (Z.leb_spec 10 (level m)) as [A|A].
      - cbn [fold_left handle logs terminal root_level handlers]. rewrite E3. destruct (Z.leb_spec th (level m)); cbn [logs terminal root_level handlers].
        + split; [split; [reflexivity|split; [reflexivity|cbn [logs]; apply set_same]]|]. split; [reflexivity|]. intros q Hq. now apply set_other.
        + split; [split; [reflexivity|split; [reflexivity|cbn [logs]; apply set_same]]|]. split; [now rewrite app_nil_r|]. intros q Hq. now apply set_other.
      - destruct (Z.leb_spec th (level m)); [lia|]. cbn. rewrite !app_nil_r. split; [repeat split; assumption|]. split; reflexivity. }
    destruct Q as (Q1 & Q2 & Q3). destruct (IH s1 _ Q1) as (R1 & R2 & R3). split; [|split].
    + change (m :: l) with ([m] ++ l). rewrite at_least_app, app_assoc. exact R1.
    + change (m :: l) with ([m] ++ l). cbn [terminal]. rewrite at_least_app, app_assoc, <- Q2. exact R2.
    + intros q Hq. rewrite R3, Q3 by exact Hq. reflexivity.
Qed.
Definition shown_level (c : command) : Z := if c_debug c then 10 else 20.
Lemma setup_first s c : handlers s = [] ->
  ready (own_log c) (shown_level c) (setup_logging s (c_folder c) (c_debug c) (c_now c)) [] /\
  terminal (setup_logging s (c_folder c) (c_debug c) (c_now c)) = terminal s /\
  forall q, q <> own_log c -> logs (setup_logging s (c_folder c) (c_debug c) (c_now c)) q = logs s q.
Proof.
  intros E. unfold setup_logging. cbn [handlers]. rewrite E. cbn. split; [repeat split; apply set_same|]. split; [reflexivity|]. intros q Hq. now apply set_other.
Qed.
Lemma first_command s c : root_level s = 30 -> handlers s = [] ->
  ready (own_log c) (shown_level c) (run_command s c) (at_least 10 (c_messages c)) /\
  terminal (run_command s c) = terminal s ++ at_least 30 (c_before c) ++ at_least (shown_level c) (c_messages c) /\
  forall q, q <> own_log c -> logs (run_command s c) q = logs s q.
Proof.
  intros E E'. unfold run_command. rewrite (emit_before (c_before c) s) by assumption. set (s0 := mkmachine _ _ _ _).
  destruct (setup_first s0 c eq_refl) as (A & B & C).
  destruct (emit_after (own_log c) (shown_level c) (c_messages c) ltac:(unfold shown_level; destruct (c_debug c); lia) _ _ A) as (A' & B' & C').
  split; [exact A'|]. split; [rewrite B', B; cbn [s0 terminal]; now rewrite app_assoc|]. intros q Hq. rewrite C', C by exact Hq. reflexivity.
Qed.
Lemma later_command p th s x c : 10 <= th -> ready p th s x -> own_log c <> p ->
  ready p th (run_command s c) (x ++ at_least 10 (c_before c) ++ at_least 10 (c_messages c)) /\
  terminal (run_command s c) = terminal s ++ at_least th (c_before c) ++ at_least th (c_messages c) /\
  logs (run_command s c) (own_log c) = Some [] /\
  forall q, q <> p -> q <> own_log c -> logs (run_command s c) q = logs s q.
Proof.
  intros Hth R Hp. unfold run_command. destruct (emit_after p th (c_before c) Hth s x R) as (A & B & C). set (s1 := fold_left emit (c_before c) s) in *.
  assert (Q : ready p th (setup_logging s1 (c_folder c) (c_debug c) (c_now c)) (x ++ at_least 10 (c_before c)) /\
     terminal (setup_logging s1 (c_folder c) (c_debug c) (c_now c)) = terminal s1 /\
     logs (setup_logging s1 (c_folder c) (c_debug c) (c_now c)) = set_file (logs s1) (own_log c) []).
  { destruct A as (A1 & A2 & A3). unfold setup_logging. cbn [handlers logs]. rewrite A2. cbn. split; [|split; reflexivity]. split; [exact A1|]. split; [reflexivity|].
    cbn [logs]. change (log_path (c_folder c) (c_now c)) with (own_log c). rewrite set_other by congruence. exact A3. }
  destruct Q as (Q1 & Q2 & Q3). destruct (emit_after p th (c_messages c) Hth _ _ Q1) as (A' & B' & C').
  split; [rewrite app_assoc; exact A'|]. split; [rewrite B', Q2, B; now rewrite app_assoc|]. split.
  - rewrite C', Q3 by exact Hp. apply set_same.
  - intros q H1 H2. rewrite C', Q3, set_other, C by assumption. reflexivity.
Qed.

(** ** C114 *)
(** A command in a process of its own, after any history: its log file holds exactly its messages from DEBUG on, in
    order; no other log file is touched; the terminal shows those from INFO on (with --debug all), and from the time before only
    warnings.  ([c_messages] is what the command has logged so far, so this holds at every moment of it.) *)
Theorem C114_own_log_partial s c :
  let s' := run_process s [c] in
  logs s' (own_log c) = Some (at_least 10 (c_messages c)) /\
  (forall q, q <> own_log c -> logs s' q = logs s q) /\
  terminal s' = terminal s ++ at_least 30 (c_before c) ++ at_least (if c_debug c then 10 else 20) (c_messages c).
Proof.
  cbv zeta. unfold run_process. cbn [fold_left]. destruct (first_command (mkmachine (logs s) (terminal s) 30 []) c eq_refl eq_refl) as ((_ & _ & A) & B & C).
  split; [exact A|]. split; [exact C|exact B].
Qed.
(** So after any number of commands, each in its own process and no two with the same folder in the same second, all logs are there. *)
Theorem C114_history_partial s cs : Forall dated_command cs -> ForallOrdPairs (fun c c' => ~ same_slot c c') cs ->
  forall c, In c cs -> logs (run_history s (map (fun c => [c]) cs)) (own_log c) = Some (at_least 10 (c_messages c)).
Proof.
  intros HD HO c Hc. revert s. induction HO as [|c0 cs H0 HO IH]; [destruct Hc|]. intros s. cbn [map run_history fold_left].
  inversion HD as [|? ? D0 HD']; subst. destruct Hc as [->|Hc]; [|exact (IH HD' Hc _)].
  assert (G : forall cs s, Forall dated_command cs -> Forall (fun c' => ~ same_slot c c') cs ->
     logs (fold_left run_process (map (fun c => [c]) cs) s) (own_log c) = logs s (own_log c)).
  { clear - D0. induction cs as [|c1 cs IH]; intros s HD HF; [reflexivity|]. inversion HD; subst. inversion HF; subst. cbn [map fold_left]. rewrite IH by assumption.
    destruct (C114_own_log_partial s c1) as (_ & H' & _). apply H'. rewrite C114_names by assumption. assumption. }
  rewrite G by assumption. exact (proj1 (C114_own_log_partial s c)).
Qed.
(** Missing: two commands with the same folder in the same second (two jobs started together, a fast failure and a second
    try): nothing is left of the first log. *)
Theorem C114_same_second_refuted s c c' : same_slot c c' -> dated_command c -> dated_command c' ->
  logs (run_history s [[c]; [c']]) (own_log c) = Some (at_least 10 (c_messages c')).
Proof. intros H D D'. cbn [run_history fold_left]. rewrite (proj2 (C114_names c c' D D') H). exact (proj1 (C114_own_log_partial (run_process s [c]) c')). Qed.
(** Missing: several commands in one process (a script, a notebook).  The first log gets the messages of all of them, in whatever folder it
    is; those of the others stay empty, and --debug of the first decides for all. *)
Theorem C114_one_process_refuted s c cs : dated_command c -> Forall dated_command cs -> Forall (fun c' => ~ same_slot c c') cs ->
  let s' := run_process s (c :: cs) in
  logs s' (own_log c) = Some (at_least 10 (c_messages c ++ List.concat (map (fun c' => c_before c' ++ c_messages c') cs))) /\
  (forall c', In c' cs -> logs s' (own_log c') = Some []) /\
  terminal s' = terminal s ++ at_least 30 (c_before c) ++
    at_least (if c_debug c then 10 else 20) (c_messages c ++ List.concat (map (fun c' => c_before c' ++ c_messages c') cs)).
Proof.
  intros D HD HF. cbv zeta. unfold run_process. cbn [fold_left].
  destruct (first_command (mkmachine (logs s) (terminal s) 30 []) c eq_refl eq_refl) as (A & B & C). set (s1 := run_command _ c) in *.
  assert (Hth : 10 <= shown_level c) by (unfold shown_level; destruct (c_debug c); lia).
  assert (G : forall cs s1 x, ready (own_log c) (shown_level c) s1 x -> Forall dated_command cs -> Forall (fun c' => ~ same_slot c c') cs ->
     let s' := fold_left run_command cs s1 in let l := List.concat (map (fun c' => c_before c' ++ c_messages c') cs) in
     ready (own_log c) (shown_level c) s' (x ++ at_least 10 l) /\ terminal s' = terminal s1 ++ at_least (shown_level c) l /\
     (forall c', In c' cs -> logs s' (own_log c') = Some []) /\
     (forall q, logs s1 q = Some [] -> q <> own_log c -> logs s' q = Some [])).
  { clear - D Hth. induction cs as [|c1 cs IH]; intros s1 x R HD HF; cbv zeta.
    - cbn. rewrite !app_nil_r. repeat split; try apply R; auto. intros c' [].
    - inversion HD as [|? ? D1 HD']; subst. inversion HF as [|? ? F1 HF']; subst. cbn [fold_left].
      assert (N1 : own_log c1 <> own_log c) by (intros E; apply F1, C114_names; auto).
      destruct (later_command _ _ _ _ c1 Hth R N1) as (R1 & T1 & E1 & O1).
      destruct (IH _ _ R1 HD' HF') as (R2 & T2 & E2 & O2). cbn [map List.concat]. split; [|split; [|split]].
      + rewrite !at_least_app, !app_assoc in *. exact R2.
      + rewrite T2, T1, !at_least_app, !app_assoc. reflexivity.
      + intros c' [->|Hc]; [|now apply E2]. apply O2; assumption.
      + intros q Hq Hne. apply O2; [|exact Hne]. destruct (string_dec q (own_log c1)) as [->|Hn]; [exact E1|]. rewrite O1 by assumption. exact Hq. }
  destruct (G cs s1 _ A HD HF) as ((_ & _ & L) & T & E & _). split; [rewrite at_least_app; exact L|]. split; [exact E|].
  rewrite T, B. cbn [terminal]. unfold shown_level. rewrite !at_least_app, !app_assoc. reflexivity.
Qed.

(** Non-vacuity: preprocessing and tracking, a second apart *)
Definition noon : Z := 1000000 * 43200.
Definition ex_prep : command := mkcommand "pre" false noon [mkmessage 20 "Creating output folder"] [mkmessage 20 "Welcome to WAM2layers."; mkmessage 10 "details"].
Definition ex_track : command := mkcommand "out" true (noon + 1000000) [] [mkmessage 30 "Stability correction applied"].
Theorem C114_case : dated_command ex_prep /\ dated_command ex_track /\ ~ same_slot ex_prep ex_track /\
  (forall s, logs (run_history s [[ex_prep]; [ex_track]]) (own_log ex_prep) = Some (c_messages ex_prep) /\
             logs (run_history s [[ex_prep]; [ex_track]]) (own_log ex_track) = Some (c_messages ex_track)) /\
  (forall s, logs (run_process s [ex_prep; ex_track]) (own_log ex_prep) = Some (c_messages ex_prep ++ c_messages ex_track) /\
             logs (run_process s [ex_prep; ex_track]) (own_log ex_track) = Some []).
Proof.
  assert (D : forall t, t = noon \/ t = noon + 1000000 -> date_of ProlepticGregorian t = Some (1970, 1, 1)).
  { intros t [-> | ->]; unfold date_of, day_of; rewrite civil_eq, epoch_eq; vm_compute; reflexivity. }
  assert (D1 : dated_command ex_prep) by (exists 1970, 1, 1; split; [apply D; now left|lia]).
  assert (D2 : dated_command ex_track) by (exists 1970, 1, 1; split; [apply D; now right|lia]).
  assert (N1 : ~ same_slot ex_prep ex_track) by (intros [H _]; discriminate H).
  split; [exact D1|]. split; [exact D2|]. split; [exact N1|]. split.
  - intros s. pose proof (C114_history_partial s [ex_prep; ex_track]) as H. cbn [map] in H. split.
    + apply H; [auto|repeat constructor; exact N1|left; reflexivity].
    + apply H; [auto|repeat constructor; exact N1|right; left; reflexivity].
  - intros s. destruct (C114_one_process_refuted s ex_prep [ex_track] D1 ltac:(auto) ltac:(auto)) as (A & B & _). split; [exact A|]. apply B. left. reflexivity.
Qed.
