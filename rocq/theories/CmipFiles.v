(** * C80: CMIP variables split over several files
    preprocessing/cmip.py l.63-85 (open_var), l.88-114 (load_cmip_var), utils/calendar.py l.81-83
    (template_to_files). *)
From Coq Require Import Reals Lra Lia Arith ZArith List Bool Permutation.
From Verif Require Import Num Arr Cmip.
Import ListNotations.
Local Open Scope R_scope.
Local Open Scope list_scope.

(** ** Model *)
(** a file: the time axis and the fields of one variable ([P]: grid points) *)
Definition cmip_file (P : Type) := (list Z * list (P -> R))%type.
(** utils/calendar.py l.81-83: the files that match the template in the order in which the file system lists
    them (pathlib's glob does not sort); preprocessing/cmip.py l.63-85: concatenated along time in that
    order.  Without files, datasets[0] is an IndexError. *)
Definition open_var {P} (listing : list (cmip_file P)) : res (cmip_file P) :=
  match listing with
  | [] => Err IndexError
  | _ => OK (List.concat (map fst listing), List.concat (map snd listing))
  end.
(** cmip.py l.88-114 for the three-hourly variables (pr, hfls); [scale] as in Cmip.v *)
Definition load_3hr_files {P} (scale : R) (listing : list (cmip_file P)) (t : Z) : res (P -> R) :=
  do d <- open_var listing; load_cmip_3hr scale (fst d) (snd d) t.
(** and for the others (q, u, v, ps, ...), which have one value every six hours *)
Definition load_6hr_files {P} (listing : list (cmip_file P)) (t : Z) : res (P -> R) :=
  do d <- open_var listing; sel_time t (fst d) (snd d).

(** ** Specification *)
Definition proper {P} (f : cmip_file P) : Prop := List.length (snd f) = List.length (fst f).
(** no time occurs twice, in one file or in two *)
Definition times_unique {P} (listing : list (cmip_file P)) : Prop := NoDup (List.concat (map fst listing)).
(** a file with whole six-hour periods: an even number of times, the first one at 01:30 (up to seconds) *)
Definition six_hour_periods {P} (f : cmip_file P) : Prop :=
  fst f <> [] /\ Nat.even (List.length (fst f)) = true /\
  (usec_hour + 30 * usec_min <= hd 0%Z (fst f) mod usec_day < usec_hour + 31 * usec_min)%Z.

(** ** Lemmas *)
Lemma combine_app {A B} (a a' : list A) (b b' : list B) : List.length a = List.length b -> combine (a ++ a') (b ++ b') = combine a b ++ combine a' b'.
Proof. revert b. induction a as [|x a IH]; intros [|y b] H; cbn in *; try lia; [reflexivity|]. now rewrite IH by lia. Qed.
Lemma evens_app {A} : forall n (a b : list A), List.length a = (2 * n)%nat -> evens (a ++ b) = evens a ++ evens b.
Proof.
  induction n; intros a b H; [destruct a; [reflexivity|discriminate]|]. destruct a as [|x [|y a]]; cbn [List.length] in H; try lia.
  cbn [app evens]. now rewrite IHn by lia.
Qed.
Lemma odds_cons2 {A} (x y : A) l : odds (x :: y :: l) = y :: odds l.
Proof. cbn [odds]. destruct l; reflexivity. Qed.
Lemma odds_app {A} : forall n (a b : list A), List.length a = (2 * n)%nat -> odds (a ++ b) = odds a ++ odds b.
Proof.
  induction n; intros a b H; [destruct a; [reflexivity|discriminate]|]. destruct a as [|x [|y a]]; cbn [List.length] in H; try lia.
  cbn [app]. rewrite !odds_cons2. cbn [app]. now rewrite IHn by lia.
Qed.
Fixpoint sel_pairs {P} (t : Z) (l : list (Z * (P -> R))) : res (P -> R) :=
  match l with [] => Err KeyError | (t', f) :: l => if Z.eqb t' t then OK f else sel_pairs t l end.
Lemma sel_time_pairs {P} t times (data : list (P -> R)) : sel_time t times data = sel_pairs t (combine times data).
Proof. revert data. induction times as [|t' times IH]; intros [|f data]; cbn; try reflexivity. now rewrite IH. Qed.
Lemma sel_pairs_perm {P} t (l1 l2 : list (Z * (P -> R))) : NoDup (map fst l1) -> Permutation l1 l2 -> sel_pairs t l1 = sel_pairs t l2.
Proof.
  intros D Pm. revert D. induction Pm as [|[t' f] l l' H IH|[t1 f1] [t2 f2] l|l l' l'' H1 IH1 H2 IH2]; intros D; cbn [sel_pairs]; auto.
  - inversion D; subst. now rewrite IH.
  - destruct (Z.eqb_spec t1 t), (Z.eqb_spec t2 t); auto. subst. inversion D as [|? ? Hn _]. exfalso. apply Hn. now left.
  - rewrite IH1 by exact D. apply IH2. apply (Permutation_NoDup (Permutation_map fst H1) D).
Qed.
Lemma fst_combine {A B} (a : list A) (b : list B) : List.length a = List.length b -> map fst (combine a b) = a.
Proof. revert b. induction a as [|x a IH]; intros [|y b] H; cbn in *; try lia; [reflexivity|]. now rewrite IH by lia. Qed.
Lemma combine_concat {P} (listing : list (cmip_file P)) : (forall f, In f listing -> proper f) ->
  combine (List.concat (map fst listing)) (List.concat (map snd listing)) = flat_map (fun f => combine (fst f) (snd f)) listing /\
  List.length (List.concat (map fst listing)) = List.length (List.concat (map snd listing)).
Proof.
  induction listing as [|f l IH]; intros H; [split; reflexivity|]. destruct (IH ltac:(intros; apply H; now right)) as [E L]. pose proof (H f (or_introl eq_refl)) as Hf. unfold proper in Hf.
  cbn [map List.concat flat_map]. rewrite combine_app by congruence. rewrite E, !app_length, L, Hf. auto.
Qed.
Lemma flat_map_perm {A B} (g : A -> list B) l l' : Permutation l l' -> Permutation (flat_map g l) (flat_map g l').
Proof.
  induction 1 as [|x l l' H IH|x y l|l l' l'' H1 IH1 H2 IH2]; cbn [flat_map]; auto.
  - now apply Permutation_app_head.
  - rewrite !app_assoc. apply Permutation_app_tail, Permutation_app_comm.
  - eapply Permutation_trans; eauto.
Qed.
Lemma open_perm {P} (l1 l2 : list (cmip_file P)) : Permutation l1 l2 ->
  (l1 = [] /\ l2 = []) \/ (open_var l1 = OK (List.concat (map fst l1), List.concat (map snd l1)) /\ open_var l2 = OK (List.concat (map fst l2), List.concat (map snd l2))).
Proof.
  intros H. destruct l1 as [|a l1]; [apply Permutation_nil in H; auto|]. destruct l2 as [|b l2]; [apply Permutation_sym, Permutation_nil in H; discriminate|]. right. split; reflexivity.
Qed.

(** ** C80 *)
(** Six-hourly variables: the order in which the files are listed does not matter. *)
Theorem C80_six_hourly {P} (l1 l2 : list (cmip_file P)) t :
  (forall f, In f l1 -> proper f) -> times_unique l1 -> Permutation l1 l2 -> load_6hr_files l1 t = load_6hr_files l2 t.
Proof.
  intros Hp U Pm. unfold load_6hr_files. destruct (open_perm l1 l2 Pm) as [[-> ->]|[-> ->]]; [reflexivity|]. cbn [bind fst snd].
  destruct (combine_concat l1 Hp) as [E1 L1]. destruct (combine_concat l2 ltac:(intros f Hf; apply Hp, (Permutation_in _ (Permutation_sym Pm)), Hf)) as [E2 L2].
  rewrite !sel_time_pairs, E1, E2. apply sel_pairs_perm; [rewrite <- E1, fst_combine by exact L1; exact U|]. now apply flat_map_perm.
Qed.

(** And what is loaded for a time is the field of that time, in whatever file it is; a time that is in
    none of the files is an error. *)
Lemma sel_pairs_In {P} t (f : P -> R) l : NoDup (map fst l) -> In (t, f) l -> sel_pairs t l = OK f.
Proof.
  induction l as [|[t' g] l IH]; intros D H; [destruct H|]. cbn [map] in D. cbn [sel_pairs]. inversion D as [|? ? Hn D']; subst. destruct H as [E|H].
  - injection E as -> ->. now rewrite Z.eqb_refl.
  - destruct (Z.eqb_spec t' t) as [->|]; [|now apply IH]. exfalso. apply Hn. apply (in_map fst _ _ H).
Qed.
Lemma sel_pairs_none {P} t (l : list (Z * (P -> R))) : ~ In t (map fst l) -> sel_pairs t l = Err KeyError.
Proof.
  induction l as [|[t' g] l IH]; intros H; [reflexivity|]. cbn [sel_pairs]. cbn [map fst] in H. destruct (Z.eqb_spec t' t) as [->|]; [exfalso; apply H; now left|].
  apply IH. intros C. apply H. now right.
Qed.
Lemma in_combine_nth {A B} k (a : list A) (b : list B) x y : nth_error a k = Some x -> nth_error b k = Some y -> In (x, y) (combine a b).
Proof.
  revert a b. induction k; intros [|x' a] [|y' b] H1 H2; cbn in *; try discriminate.
  - injection H1 as ->. injection H2 as ->. now left.
  - right. now apply IHk.
Qed.
Theorem C80_six_hourly_value {P} (l : list (cmip_file P)) t :
  (forall f, In f l -> proper f) -> times_unique l ->
  (forall f k x, In f l -> nth_error (fst f) k = Some t -> nth_error (snd f) k = Some x -> load_6hr_files l t = OK x) /\
  (l <> [] -> (forall f, In f l -> ~ In t (fst f)) -> load_6hr_files l t = Err KeyError).
Proof.
  intros Hp U. destruct (combine_concat l Hp) as [E L]. split.
  - intros f k x Hf Ht Hx. unfold load_6hr_files, open_var. destruct l as [|f0 l0]; [destruct Hf|]. cbn [bind fst snd]. rewrite sel_time_pairs, E.
    apply sel_pairs_In; [rewrite <- E, fst_combine by exact L; exact U|]. apply in_flat_map. exists f. split; [exact Hf|]. eapply in_combine_nth; eauto.
  - intros Hne Hn. unfold load_6hr_files, open_var. destruct l as [|f0 l0]; [contradiction|]. cbn [bind fst snd]. rewrite sel_time_pairs.
    apply sel_pairs_none. rewrite fst_combine by exact L. intros C. apply in_concat in C as (ts & Hts & Ht). apply in_map_iff in Hts as (f & <- & Hf). exact (Hn f Hf Ht).
Qed.

(** labels and means of one file *)
Definition means {P} (scale : R) (f : cmip_file P) : list (Z * (P -> R)) :=
  combine (map (fun t => t + (4 * usec_hour + 30 * usec_min))%Z (evens (fst f)))
          (map (fun g p => g p * scale) (map (fun ab p => (fst ab p + snd ab p) / 2) (combine (evens (snd f)) (odds (snd f))))).
Lemma means_concat {P} scale (listing : list (cmip_file P)) : (forall f, In f listing -> proper f) -> (forall f, In f listing -> Nat.even (List.length (fst f)) = true) ->
  means scale (List.concat (map fst listing), List.concat (map snd listing)) = flat_map (means scale) listing /\
  exists n, List.length (List.concat (map fst listing)) = (2 * n)%nat.
Proof.
  induction listing as [|f l IH]; intros H1 H2; [split; [reflexivity|now exists 0%nat]|].
  destruct (IH ltac:(intros; apply H1; now right) ltac:(intros; apply H2; now right)) as [E [n Ln]].
  pose proof (H1 f (or_introl eq_refl)) as Hf. pose proof (H2 f (or_introl eq_refl)) as He. apply Nat.even_spec in He as [k Hk]. unfold proper in Hf.
  split; [|exists (k + n)%nat; cbn [map List.concat]; rewrite app_length; lia].
  cbn [map List.concat flat_map]. rewrite <- E. unfold means. cbn [fst snd].
  rewrite (evens_app k (fst f)) by exact Hk. rewrite (evens_app k (snd f)), (odds_app k (snd f)) by congruence.
  assert (Eq1 : List.length (evens (snd f)) = k) by (rewrite evens_len, Hf, Hk; symmetry; apply (Nat.div_unique _ _ k 1); lia).
  assert (Eq2 : List.length (odds (snd f)) = k) by (rewrite odds_len, Hf, Hk; symmetry; apply (Nat.div_unique _ _ k 0); lia).
  assert (Eq3 : List.length (evens (fst f)) = k) by (rewrite evens_len, Hk; symmetry; apply (Nat.div_unique _ _ k 1); lia).
  rewrite combine_app by congruence. rewrite !map_app. rewrite combine_app; [reflexivity|]. rewrite !map_length, combine_length. lia.
Qed.
Lemma evens_incl {A} (l : list A) x : In x (evens l) -> In x l.
Proof.
  intros H. apply In_nth with (d := x) in H. destruct H as (k & Hk & E). rewrite evens_nth in E. rewrite evens_len in Hk. rewrite <- E. apply nth_In.
  pose proof (Nat.div_mod (List.length l + 1) 2 ltac:(lia)). lia.
Qed.
Lemma evens_NoDup {A} : forall n (l : list A), (List.length l <= n)%nat -> NoDup l -> NoDup (evens l).
Proof.
  induction n; intros [|a [|b l]] H D; cbn [List.length evens] in *; try lia; try constructor.
  - intros [].
  - constructor.
  - inversion D as [|? ? Hn D']; subst. intros Hin. apply Hn. right. now apply evens_incl.
  - inversion D as [|? ? Hn D']; subst. inversion D' as [|? ? Hn' D'']; subst. apply IHn; [lia|exact D''].
Qed.
Lemma load_3hr_means {P} scale (listing : list (cmip_file P)) t : listing <> [] ->
  (forall f, In f listing -> proper f) -> (forall f, In f listing -> six_hour_periods f) ->
  load_3hr_files scale listing t = sel_pairs t (flat_map (means scale) listing).
Proof.
  intros Hne Hp Hs. unfold load_3hr_files, open_var. destruct listing as [|f0 l0]; [contradiction|]. cbn [bind]. set (L := f0 :: l0) in *.
  destruct (means_concat scale L Hp ltac:(intros f Hf; apply Hs, Hf)) as [E [n Ln]]. destruct (combine_concat L Hp) as [_ Ll].
  unfold load_cmip_3hr. cbn [fst snd].
  assert (Ok : exists r, resample_3hr_var (List.concat (map fst L)) (List.concat (map snd L)) = OK r).
  { apply C57_accepts; [congruence|]. destruct (Hs f0 (or_introl eq_refl)) as (N0 & _ & S0). unfold L. cbn [map List.concat].
    destruct (fst f0) as [|t0 ts] eqn:Ef; [contradiction|]. cbn [app]. split; [discriminate|]. split; [|exact S0].
    change (t0 :: ts ++ List.concat (map fst l0)) with ((t0 :: ts) ++ List.concat (map fst l0)). rewrite <- Ef. change (fst f0 ++ List.concat (map fst l0)) with (List.concat (map fst L)). rewrite Ln. apply Nat.even_spec. now exists n. }
  destruct Ok as [[t' d'] Er]. destruct (resample_ok _ _ _ _ (eq_sym Ll) Er) as (m & Hm & Lm & -> & ->). rewrite Er. cbn [bind fst snd].
  rewrite sel_time_pairs. rewrite <- E. reflexivity.
Qed.
(** Three-hourly variables in files with whole six-hour periods: neither here does the order matter. *)
Theorem C80_three_hourly_partial {P} scale (l1 l2 : list (cmip_file P)) t :
  (forall f, In f l1 -> proper f) -> (forall f, In f l1 -> six_hour_periods f) -> times_unique l1 -> Permutation l1 l2 ->
  load_3hr_files scale l1 t = load_3hr_files scale l2 t.
Proof.
  intros Hp Hs U Pm. destruct (open_perm l1 l2 Pm) as [[-> ->]|[O1 O2]]; [reflexivity|].
  assert (Hp2 : forall f, In f l2 -> proper f) by (intros f Hf; apply Hp, (Permutation_in _ (Permutation_sym Pm)), Hf).
  assert (Hs2 : forall f, In f l2 -> six_hour_periods f) by (intros f Hf; apply Hs, (Permutation_in _ (Permutation_sym Pm)), Hf).
  rewrite !load_3hr_means; auto; try (intros ->; discriminate).
  apply sel_pairs_perm; [|now apply flat_map_perm].
  destruct (means_concat scale l1 Hp ltac:(intros f Hf; apply Hs, Hf)) as [<- [n Ln]]. destruct (combine_concat l1 Hp) as [_ Ll]. unfold means. cbn [fst snd].
  rewrite fst_combine.
  - apply FinFun.Injective_map_NoDup; [intros x y E; lia|]. eapply evens_NoDup; [apply le_n|exact U].
  - rewrite !map_length, combine_length, !evens_len, odds_len, <- Ll, Ln. symmetry. assert ((2 * n + 1) / 2 = n)%nat as -> by (symmetry; apply (Nat.div_unique _ _ n 1); lia).
    assert (2 * n / 2 = n)%nat as -> by (symmetry; apply (Nat.div_unique _ _ n 0); lia). lia.
Qed.

(** And what is loaded at the end of a six-hour period of one of the files is the mean of the two values of
    that period in that file. *)
Theorem C80_three_hourly_value_partial {P} scale (l : list (cmip_file P)) f k t0 x y :
  (forall f, In f l -> proper f) -> (forall f, In f l -> six_hour_periods f) -> times_unique l -> In f l ->
  nth_error (fst f) (2 * k) = Some t0 -> nth_error (snd f) (2 * k) = Some x -> nth_error (snd f) (2 * k + 1) = Some y ->
  exists g, load_3hr_files scale l (t0 + (4 * usec_hour + 30 * usec_min)) = OK g /\ forall p, g p = (x p + y p) / 2 * scale.
Proof.
  intros Hp Hs U Hf Ht Hx Hy. rewrite load_3hr_means; [|intros ->; destruct Hf|exact Hp|exact Hs].
  exists (fun p => (x p + y p) / 2 * scale). split; [|reflexivity]. apply sel_pairs_In.
  - destruct (means_concat scale l Hp ltac:(intros g Hg; apply Hs, Hg)) as [E [n Ln]]. rewrite <- E. unfold means. cbn [fst snd]. destruct (combine_concat l Hp) as [_ Ll].
    rewrite fst_combine by (rewrite !map_length, combine_length, !evens_len, odds_len, <- Ll, Ln;
      rewrite (proj1 (conj (eq_sym (Nat.div_unique (2 * n + 1) 2 n 1 ltac:(lia) ltac:(lia))) I)), (eq_sym (Nat.div_unique (2 * n) 2 n 0 ltac:(lia) ltac:(lia))); lia).
    apply FinFun.Injective_map_NoDup; [intros a b; lia|]. now apply (evens_NoDup _ _ (le_n _)).
  - apply in_flat_map. exists f. split; [exact Hf|]. unfold means.
    assert (EQ : forall A (a : list A) z, nth_error a (2 * k) = Some z -> nth_error (evens a) k = Some z).
    { intros A a z Hz. assert (Hl : (2 * k < List.length a)%nat) by (apply nth_error_Some; congruence).
      rewrite (nth_error_nth' _ z) by (rewrite evens_len; apply (Nat.div_le_lower_bound _ 2 (S k)); lia).
      rewrite evens_nth. now rewrite (nth_error_nth _ _ z Hz). }
    assert (OQ : forall A (a : list A) z, nth_error a (2 * k + 1) = Some z -> nth_error (odds a) k = Some z).
    { intros A a z Hz. assert (Hl : (2 * k + 1 < List.length a)%nat) by (apply nth_error_Some; congruence).
      rewrite (nth_error_nth' _ z) by (rewrite odds_len; apply (Nat.div_le_lower_bound _ 2 (S k)); lia).
      rewrite odds_nth. now rewrite (nth_error_nth _ _ z Hz). }
    apply (in_combine_nth k).
    + rewrite nth_error_map, (EQ _ _ _ Ht). reflexivity.
    + rewrite !nth_error_map. assert (EC : nth_error (combine (evens (snd f)) (odds (snd f))) k = Some (x, y)).
      { pose proof (EQ _ _ _ Hx) as E1. pose proof (OQ _ _ _ Hy) as E2. revert E1 E2. generalize (evens (snd f)) (odds (snd f)). clear.
        induction k; intros [|a l1] [|b l2] E1 E2; cbn in *; try discriminate; [congruence|]. now apply IHk. }
      rewrite EC. reflexivity.
Qed.

(** In general it does: if a file ends in the middle of a six-hour period, another listing of the same files
    silently gives another flux.  Two days in three files: 01:30; the rest of the first day; the second day. *)
Definition at_0130 (k : Z) : Z := (usec_hour + 30 * usec_min + 3 * usec_hour * k)%Z.
Definition split_file (first : Z) (n : nat) (value : R) : cmip_file unit :=
  (map (fun k => at_0130 (first + Z.of_nat k)) (seq 0 n), repeat (fun _ => value) n).
Theorem C80_order_matters_refuted : exists l1 l2 : list (cmip_file unit), exists f g,
  Permutation l1 l2 /\ (forall f, In f l1 -> proper f) /\ times_unique l1 /\
  (* the listing in order of time is a regular series from 01:30 *)
  List.concat (map fst l1) = three_hourly 0 16 /\
  load_3hr_files 1 l1 (6 * usec_hour) = OK f /\ load_3hr_files 1 l2 (6 * usec_hour) = OK g /\
  (* the first is the mean over the six hours, the second mixes in the next day *)
  f tt = 2 /\ g tt = 3.
Proof.
  exists [split_file 0 1 1; split_file 1 7 3; split_file 8 8 5], [split_file 0 1 1; split_file 8 8 5; split_file 1 7 3].
  eexists _, _. split; [constructor; constructor|]. split; [intros f [<-|[<-|[<-|[]]]]; reflexivity|].
  split; [unfold times_unique; vm_compute; repeat constructor; cbn; intros H; repeat destruct H as [H|H]; try discriminate; contradiction|].
  split; [reflexivity|]. split; [reflexivity|]. split; [reflexivity|]. cbn. split; lra.
Qed.
(** And a file that begins at 07:30 may come first: an error instead of data. *)
Theorem C80_order_raises_refuted : exists l1 l2 : list (cmip_file unit), exists f,
  Permutation l1 l2 /\ (forall f, In f l1 -> proper f) /\ times_unique l1 /\ List.concat (map fst l1) = three_hourly 0 8 /\
  load_3hr_files 1 l1 (6 * usec_hour) = OK f /\ load_3hr_files 1 l2 (6 * usec_hour) = Err ValueError.
Proof.
  exists [split_file 0 2 1; split_file 2 6 3], [split_file 2 6 3; split_file 0 2 1].
  eexists. split; [constructor|]. split; [intros f [<-|[<-|[]]]; reflexivity|].
  split; [unfold times_unique; vm_compute; repeat constructor; cbn; intros H; repeat destruct H as [H|H]; try discriminate; contradiction|].
  split; [reflexivity|]. split; reflexivity.
Qed.
(** Non-vacuity of the theorems above: two days, one per file. *)
Example C80_witness : let l := [split_file 0 8 1; split_file 8 8 3] in
  (forall f, In f l -> proper f) /\ (forall f, In f l -> six_hour_periods f) /\ times_unique l /\
  exists f, load_3hr_files 1 (rev l) (30 * usec_hour) = OK f /\ f tt = 3.
Proof.
  split; [intros f [<-|[<-|[]]]; reflexivity|]. split; [intros f [<-|[<-|[]]]; repeat split; vm_compute; congruence|].
  split; [unfold times_unique; vm_compute; repeat constructor; cbn; intros H; repeat destruct H as [H|H]; try discriminate; contradiction|].
  eexists. split; [reflexivity|]. cbn. lra.
Qed.
