(** * C96: preprocessing a period in two runs instead of one *)
From Coq Require Import Arith Lia Bool List ZArith String Sorted.
From Verif Require Import Num Arr Core Track Progress Run Calendar Load Prep PrepTrack ExampleRun.
Import ListNotations.
Local Open Scope Z_scope.
Local Open Scope list_scope.

(** ** Specification *)
(** [c1] and [c2] cover the period of [c]: [c1] from the start, and [c2] from the next time of the grid of [c] on *)
Definition in_two_pieces (c c1 c2 : prepcfg) : Prop :=
  pc_freq c1 = pc_freq c /\ pc_freq c2 = pc_freq c /\ pc_cal c1 = pc_cal c /\ pc_cal c2 = pc_cal c /\ pc_dir c1 = pc_dir c /\ pc_dir c2 = pc_dir c /\
  pc_start c1 = pc_start c /\ pc_end c2 = pc_end c /\
  (exists k, 0 <= k /\ pc_start c2 = pc_start c + k * pc_freq c) /\ pc_start c2 - pc_freq c <= pc_end c1 < pc_start c2 /\ pc_start c2 <= pc_end c.
(** whole minutes *)
Definition on_minutes (c : prepcfg) : Prop := 0 < pc_freq c /\ (60 * 1000000 | pc_start c) /\ (60 * 1000000 | pc_freq c).
Definition same_day (t t' : Z) : Prop := t / (24 * 60 * 60 * 1000000) = t' / (24 * 60 * 60 * 1000000).

(** ** Proofs *)
Lemma pieces_dates c c1 c2 : 0 < pc_freq c -> in_two_pieces c c1 c2 -> input_dates c = input_dates c1 ++ input_dates c2.
Proof.
  intros Hf (F1 & F2 & _ & _ & _ & _ & S1 & E2 & (k & Hk & S2) & He & Hle). unfold input_dates, cftime_range. rewrite <- map_app. f_equal. rewrite F1, F2, S1, E2.
  set (f := pc_freq c) in *. set (s := pc_start c) in *.
  replace ((pc_end c1 - s) / f + 1) with k.
  2:{ assert ((pc_end c1 - s) / f = k - 1); [|lia]. symmetry. apply Z.div_unique_pos with (pc_end c1 - s - f * (k - 1)); nia. }
  replace ((pc_end c - pc_start c2) / f + 1) with ((pc_end c - s) / f + 1 - k).
  2:{ rewrite S2. replace (pc_end c - (s + k * f)) with (pc_end c - s + (- k) * f) by ring. rewrite Z.div_add by lia. lia. }
  set (n := (pc_end c - s) / f + 1). assert (Hn : k <= n). { unfold n. assert (k <= (pc_end c - s) / f); [|lia]. apply Z.div_le_lower_bound; nia. }
  replace (Z.to_nat n) with (Z.to_nat k + Z.to_nat (n - k))%nat by lia. rewrite seq_app, map_app. f_equal. cbn [Nat.add].
  rewrite <- (Nat.add_0_r (Z.to_nat k)) at 1. generalize (Z.to_nat (n - k)). intros m. generalize 0%nat. induction m as [|m IH]; intros a; [reflexivity|]. cbn [seq map].
  f_equal; [rewrite S2, Nat2Z.inj_add, Z2Nat.id by lia; ring|]. rewrite <- Nat.add_succ_r. apply IH.
Qed.
Lemma filter_none {A} (p : A -> bool) l : (forall x, In x l -> p x = false) -> filter p l = [].
Proof. induction l as [|a l IH]; cbn; intros H; [reflexivity|]. rewrite (H a) by auto. apply IH. auto. Qed.

(** Both runs succeed.  If the second starts on another day than the first ends, the folder then is that of one run
    over the whole period. *)
Theorem C96_split_between_days_partial {N : NumOps} (data : Z -> slice N) c c1 c2 fs l1 l2 l fs' :
  0 < pc_freq c -> in_two_pieces c c1 c2 -> prep_dated c ->
  (forall t t', In t (input_dates c1) -> In t' (input_dates c2) -> ~ same_day t t') ->
  schedule (workers c1) l1 -> schedule (workers c2) l2 -> schedule (workers c) l -> acts data l fs = OK fs' ->
  exists fs1 fs2, acts data l1 fs = OK fs1 /\ acts data l2 fs1 = OK fs2 /\ forall name, fs2 name = fs' name.
Proof.
  intros Hf Hp Hd Hday S1 S2 S E. pose proof (pieces_dates c c1 c2 Hf Hp) as Ed.
  destruct Hp as (_ & _ & C1 & C2 & D1 & D2 & _).
  assert (P1 : prep_dated c1) by (intros t Ht; rewrite C1; apply Hd; rewrite Ed; apply in_or_app; auto).
  assert (P2 : prep_dated c2) by (intros t Ht; rewrite C2; apply Hd; rewrite Ed; apply in_or_app; auto).
  destruct (C53_day_files_complete_any_schedule data c1 fs l1 P1 S1) as (fs1 & E1 & [A1 B1]).
  destruct (C53_day_files_complete_any_schedule data c2 fs1 l2 P2 S2) as (fs2 & E2 & [A2 B2]).
  destruct (C53_day_files_complete_any_schedule data c fs l Hd S) as (f & E' & [A B]). rewrite E in E'. injection E' as <-.
  rewrite C1, D1 in A1, B1. rewrite C2, D2 in A2, B2.
  exists fs1, fs2. split; [exact E1|]. split; [exact E2|]. intros name.
  assert (Dec : forall dates, (exists t, In t dates /\ name = input_path (pc_cal c) (pc_dir c) t) \/ forall t, In t dates -> name <> input_path (pc_cal c) (pc_dir c) t).
  { induction dates as [|x dates IH]; [right; intros t []|]. destruct (string_dec name (input_path (pc_cal c) (pc_dir c) x)) as [Q|Q]; [left; exists x; split; [now left|exact Q]|].
    destruct IH as [(t & Ht & Q')|IH]; [left; exists t; split; [now right|exact Q']|right; intros t [<-|Ht]; auto]. }
  destruct (Dec (input_dates c2)) as [(t & Ht & ->)|N2].
  - rewrite A2 by exact Ht. rewrite A by (rewrite Ed; apply in_or_app; auto). rewrite Ed, filter_app. do 2 f_equal. rewrite (filter_none _ (input_dates c1)); [reflexivity|].
    intros x Hx. apply Z.eqb_neq. intros Q. apply (Hday x t Hx Ht). exact Q.
  - rewrite B2 by exact N2. destruct (Dec (input_dates c1)) as [(t & Ht & ->)|N1].
    + rewrite A1 by exact Ht. rewrite A by (rewrite Ed; apply in_or_app; auto). rewrite Ed, filter_app. do 2 f_equal. rewrite (filter_none _ (input_dates c2)); [now rewrite app_nil_r|].
      intros x Hx. apply Z.eqb_neq. intros Q. apply (Hday t x Ht Hx). unfold same_day. now symmetry.
    + rewrite B1 by exact N1. rewrite B; [reflexivity|]. intros t Ht. rewrite Ed in Ht. apply in_app_or in Ht. destruct Ht; auto.
Qed.

(** If the second run starts on a day that the first run has begun, it overwrites the file of that day: the times of
    the first run on that day are gone, and tracking cannot load them any more.  One run over the whole period has them. *)
Theorem C96_split_within_a_day_refuted {N : NumOps} (data : Z -> slice N) c c1 c2 fs l1 l2 l fs1 fs2 fs' crop t t' :
  on_minutes c -> in_two_pieces c c1 c2 -> prep_dated c -> In t (input_dates c1) -> In t' (input_dates c2) -> same_day t t' ->
  schedule (workers c1) l1 -> schedule (workers c2) l2 -> schedule (workers c) l ->
  acts data l1 fs = OK fs1 -> acts data l2 fs1 = OK fs2 -> acts data l fs = OK fs' ->
  (exists f, fs' (input_path (pc_cal c) (pc_dir c) t) = Some f /\ In (t, data t) f) /\
  (exists f, fs2 (input_path (pc_cal c) (pc_dir c) t) = Some f /\ forall s, ~ In (t, s) f) /\
  load_slice (pc_cal c) (pc_dir c) fs2 crop t = Err KeyError.
Proof.
  intros (Hf & Hs & Hm) Hp Hd Ht Ht' Hday S1 S2 S E1 E2 E. pose proof (pieces_dates c c1 c2 Hf Hp) as Ed.
  destruct Hp as (_ & _ & C1 & C2 & D1 & D2 & _).
  assert (P2 : prep_dated c2) by (intros x Hx; rewrite C2; apply Hd; rewrite Ed; apply in_or_app; auto).
  destruct (C53_day_files_complete_any_schedule data c2 fs1 l2 P2 S2) as (f2 & E2' & [A2 _]). rewrite E2 in E2'. injection E2' as <-.
  destruct (C53_day_files_complete_any_schedule data c fs l Hd S) as (f & E' & [A _]). rewrite E in E'. injection E' as <-.
  rewrite C2, D2 in A2. specialize (A2 t' Ht'). assert (Hc : In t (input_dates c)) by (rewrite Ed; apply in_or_app; auto). specialize (A t Hc).
  assert (Hc' : In t' (input_dates c)) by (rewrite Ed; apply in_or_app; auto).
  assert (Ep : input_path (pc_cal c) (pc_dir c) t = input_path (pc_cal c) (pc_dir c) t') by (apply C64_input_file_is_the_day; [apply Hd, Hc|apply Hd, Hc'|exact Hday]).
  destruct (C53_input_times c Hf Hs Hm) as [Gr Srt].
  assert (Nin : ~ In t (input_dates c2)).
  { rewrite Ed in Srt. clear - Srt Ht. induction (input_dates c1) as [|x l IH]; [destruct Ht|]. cbn in Srt. inversion Srt as [|? ? Sl Fl]; subst. destruct Ht as [->|Ht]; [|auto].
    intros Hi. rewrite Forall_forall in Fl. specialize (Fl t ltac:(apply in_or_app; auto)). lia. }
  split; [|split].
  - eexists. split; [exact A|]. apply in_map_iff. exists t. split; [reflexivity|]. apply filter_In. split; [exact Hc|apply Z.eqb_refl].
  - rewrite Ep. eexists. split; [exact A2|]. intros s Hi. apply in_map_iff in Hi. destruct Hi as (x & [= -> _] & Hx). apply filter_In in Hx. tauto.
  - unfold load_slice. rewrite Ep, A2. unfold select_label. rewrite filter_none; [reflexivity|]. intros [x s] Hx. cbn [fst]. apply String.eqb_neq. intros Q.
    apply in_map_iff in Hx. destruct Hx as (y & [= -> _] & Hy). apply filter_In in Hy. destruct Hy as [Hy _].
    assert (Hy' : In x (input_dates c)) by (rewrite Ed; apply in_or_app; auto).
    apply C64_label_is_the_second in Q; [|apply Hd, Hy'|apply Hd, Hc]. apply minute_apart in Q.
    + subst x. auto.
    + apply Gr in Hy'. destruct Hy' as (k & _ & -> & _). apply Z.divide_add_r; [exact Hs|]. now apply Z.divide_mul_r.
    + apply Gr in Hc. destruct Hc as (k & _ & -> & _). apply Z.divide_add_r; [exact Hs|]. now apply Z.divide_mul_r.
Qed.

(** ** The hypotheses can be met *)
(** two days of hourly data, in one run, split at midnight, and split at noon of the first day *)
Definition C96_all : prepcfg := mkprepcfg 0 (47 * 3600 * usec) (3600 * usec) Standard "data".
Definition C96_day1 : prepcfg := mkprepcfg 0 (23 * 3600 * usec) (3600 * usec) Standard "data".
Definition C96_day2 : prepcfg := mkprepcfg (24 * 3600 * usec) (47 * 3600 * usec) (3600 * usec) Standard "data".
Definition C96_morning : prepcfg := mkprepcfg 0 (11 * 3600 * usec) (3600 * usec) Standard "data".
Definition C96_rest : prepcfg := mkprepcfg (12 * 3600 * usec) (47 * 3600 * usec) (3600 * usec) Standard "data".
Lemma dates_bounds c t : on_minutes c -> In t (input_dates c) -> pc_start c <= t <= pc_end c.
Proof. intros (Hf & Hs & Hm) Ht. apply (C53_input_times c Hf Hs Hm) in Ht. destruct Ht as (k & Hk & -> & He). nia. Qed.
Example C96_case :
  on_minutes C96_all /\ prep_dated C96_all /\ in_two_pieces C96_all C96_day1 C96_day2 /\ in_two_pieces C96_all C96_morning C96_rest /\
  (forall t t', In t (input_dates C96_day1) -> In t' (input_dates C96_day2) -> ~ same_day t t') /\
  In 0 (input_dates C96_morning) /\ In (12 * 3600 * usec) (input_dates C96_rest) /\ same_day 0 (12 * 3600 * usec) /\
  forall c, In c [C96_all; C96_day1; C96_day2; C96_morning; C96_rest] -> exists l, schedule (workers c) l.
Proof.
  assert (M : forall a b, on_minutes (mkprepcfg (a * 3600 * usec) (b * 3600 * usec) (3600 * usec) Standard "data")).
  { intros a b. split; [reflexivity|]. split; [exists (a * 60)|exists 60]; unfold usec; cbn [pc_start pc_freq]; lia. }
  split; [exact (M 0 47)|]. split.
  { intros t Ht. apply (dates_bounds _ _ (M 0 47)) in Ht. cbn [pc_start pc_end C96_all] in Ht. exists 1970, 1. 
    assert (Hd : t / day_us = 0 \/ t / day_us = 1).
    { assert (0 <= t / day_us < 2); [|lia]. split; [apply Z.div_pos; unfold day_us, usec in *; lia|apply Z.div_lt_upper_bound; unfold day_us, usec in *; lia]. }
    unfold date_of, day_of. cbn [pc_cal C96_all]. destruct Hd as [-> | ->]; eexists; (split; [rewrite civil_eq, epoch_eq; vm_compute; reflexivity|discriminate]). }
  split; [repeat split; try discriminate; exists 24; split; [discriminate|reflexivity]|].
  split; [repeat split; try discriminate; exists 12; split; [discriminate|reflexivity]|].
  split. { intros t t' Ht Ht' Q. apply (dates_bounds _ _ (M 0 23)) in Ht. apply (dates_bounds _ _ (M 24 47)) in Ht'. cbn [pc_start pc_end] in Ht, Ht'. unfold same_day in Q.
    assert (t / (24 * 60 * 60 * 1000000) < 1) by (apply Z.div_lt_upper_bound; unfold usec in *; lia).
    assert (1 <= t' / (24 * 60 * 60 * 1000000)) by (apply Z.div_le_lower_bound; unfold usec in *; lia). lia. }
  split; [vm_compute; auto|]. split; [vm_compute; auto|]. split; [reflexivity|]. intros c _. eexists. apply sequential_is_schedule.
Qed.
