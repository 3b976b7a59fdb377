(** * C79: the order in which pressure levels are listed does not matter
    preprocessing/cmip.py l.39-46 and l.138-144 (common_levels), preprocessing/pressure_levels.py. *)
From Coq Require Import Reals Lra Lia Arith ZArith List Bool Sorted Permutation Psatz.
From Verif Require Import Num Arr Interp Levels LayersR Extend Thickness ColumnProps.
Import ListNotations.
Local Open Scope R_scope.
Local Open Scope list_scope.

(** ** Model: the levels common to three variables *)
(** One column of a variable: the coordinate "level" with the values there. *)
Definition profile := list (R * R).
Definition mem (x : R) (l : list R) : bool := if in_dec Req_EM_T x l then true else false.
(** cmip.py l.138-144.  A Python set is listed in an order that depends on hashes and history:
    [order] is arbitrary. *)
Definition common_levels (order : list R -> list R) (l1 l2 l3 : list R) : list R :=
  order (filter (fun x => mem x l3) (filter (fun x => mem x l2) (nodup Req_EM_T l1))).
(** DataArray.sel(level=levels): the values at the positions of the labels *)
Fixpoint value_at (f : profile) (p : R) : res R :=
  match f with [] => Err KeyError | (p', x) :: f => if Req_EM_T p' p then OK x else value_at f p end.
Fixpoint sel_levels (f : profile) (levels : list R) : res (list R) :=
  match levels with [] => OK [] | p :: l => do x <- value_at f p; do r <- sel_levels f l; OK (x :: r) end.
(** cmip.py l.39-46 *)
Definition cmip_column (order : list R -> list R) (q u v : profile) : res column :=
  let levels := common_levels order (map fst q) (map fst u) (map fst v) in
  do q <- sel_levels q levels; do u <- sel_levels u levels; do v <- sel_levels v levels;
  OK (mkcolumn levels u v q).

(** ** Sorted lists of rows *)
Lemma asc_head x l : ascending (x :: l) -> (forall y, In y l -> x <= y) /\ ascending l.
Proof.
  intros A. split.
  - intros y Hy. apply (asc_bounds (x :: l) y A). now right.
  - intros k Hk. apply (A (S k)). cbn. lia.
Qed.
Lemma nodup_inj {A} (f : A -> R) l a b : NoDup (map f l) -> In a l -> In b l -> f a = f b -> a = b.
Proof.
  induction l as [|x l IH]; intros D Ha Hb E; [contradiction|]. cbn in D. inversion D as [|? ? Hx D']; subst.
  destruct Ha as [->|Ha], Hb as [->|Hb]; auto; exfalso; apply Hx; [rewrite E|rewrite <- E]; now apply in_map.
Qed.
Lemma sorted_rows_unique {A} (f : A -> R) : forall l1 l2, Permutation l1 l2 -> NoDup (map f l1) -> ascending (map f l1) -> ascending (map f l2) -> l1 = l2.
Proof.
  induction l1 as [|a l1 IH]; intros l2 P D A1 A2; [apply Permutation_nil in P; now subst|].
  destruct l2 as [|b l2]; [apply Permutation_sym, Permutation_nil in P; discriminate|].
  cbn [map] in *. destruct (asc_head _ _ A1) as [M1 B1]. destruct (asc_head _ _ A2) as [M2 B2].
  assert (E : a = b).
  { assert (Ha : In a (b :: l2)) by (apply (Permutation_in _ P); now left). assert (Hb : In b (a :: l1)) by (apply (Permutation_in _ (Permutation_sym P)); now left).
    apply (nodup_inj f (a :: l1)); auto; [now left|].
    assert (f b <= f a) by (destruct Ha as [->|Ha]; [lra|apply M2, in_map, Ha]).
    assert (f a <= f b) by (destruct Hb as [->|Hb]; [lra|apply M1, in_map, Hb]). lra. }
  subst b. f_equal. apply Permutation_cons_inv in P. inversion D; subst. now apply IH.
Qed.
Lemma rows_fields n c : wf n c -> c = mkcolumn (map r_p (rows c)) (map r_u (rows c)) (map r_v (rows c)) (map r_q (rows c)).
Proof.
  intros W. assert (E : rows c = map (fun i => ((c_p c)@i, ((c_q c)@i, ((c_u c)@i, (c_v c)@i)))) (seq 0 n)).
  { destruct W as (L1 & L2 & L3 & L4). unfold rows. rewrite <- (nth_seq_all 0 (c_p c)) at 1. rewrite <- (nth_seq_all 0 (c_q c)) at 1. rewrite <- (nth_seq_all 0 (c_u c)) at 1. rewrite <- (nth_seq_all 0 (c_v c)) at 1.
    rewrite L1, L2, L3, L4, !combine_map2. reflexivity. }
  rewrite E, !map_map. unfold r_p, r_q, r_u, r_v. cbn [fst snd]. destruct W as (L1 & L2 & L3 & L4).
  pose proof (nth_seq_all 0 (c_p c)) as E1. pose proof (nth_seq_all 0 (c_q c)) as E2. pose proof (nth_seq_all 0 (c_u c)) as E3. pose proof (nth_seq_all 0 (c_v c)) as E4.
  rewrite L1 in E1. rewrite L2 in E2. rewrite L3 in E3. rewrite L4 in E4. rewrite E1, E2, E3, E4. destruct c; reflexivity.
Qed.

(** ** C79 *)
(** Two listings of the same levels (none of them at pressure 0 or at the surface pressure)
    give the same layers. *)
Theorem C79_level_order_is_irrelevant t argsort factor offset tcw n c1 c2 s :
  sorts argsort -> wf n c1 -> wf n c2 -> Permutation (rows c1) (rows c2) -> NoDup (c_p c1) ->
  Forall (fun p => 0 < p /\ p <> cast t (s_ps s)) (c_p c1) -> 0 < cast t (s_ps s) ->
  preprocess_pressure_column t argsort factor offset tcw c1 s = preprocess_pressure_column t argsort factor offset tcw c2 s.
Proof.
  intros HS W1 W2 P D F Hps. unfold preprocess_pressure_column. rewrite !extend_eq.
  assert (Pp : Permutation (c_p c1) (c_p c2)) by (rewrite <- (rows_p n c1 W1), <- (rows_p n c2 W2); now apply Permutation_map).
  destruct (argmin (c_p c1)) as [k1|e1] eqn:E1.
  2: { unfold argmin in E1. destruct (c_p c1) eqn:Q; [|discriminate]. apply Permutation_nil in Pp. unfold argmin. rewrite Pp. injection E1 as <-. reflexivity. }
  destruct (argmin (c_p c2)) as [k2|e2] eqn:E2.
  2: { exfalso. unfold argmin in E2. destruct (c_p c2) eqn:Q; [|discriminate]. apply Permutation_sym, Permutation_nil in Pp. rewrite Pp in E1. discriminate. }
  cbn [bind]. destruct (argmin_spec _ _ E1) as [K1 M1]. destruct (argmin_spec _ _ E2) as [K2 M2].
  pose proof W1 as (L1 & _). pose proof W2 as (L2 & _). rewrite L1 in K1, M1. rewrite L2 in K2, M2.
  set (row_ c k := ((c_p c)@k, ((c_q c)@k, ((c_u c)@k, (c_v c)@k)))).
  assert (I1 : In (row_ c1 k1) (rows c1)) by (apply (rows_in n); [exact W1|eauto]).
  assert (I2 : In (row_ c2 k2) (rows c1)) by (apply (Permutation_in _ (Permutation_sym P)), (rows_in n); [exact W2|eauto]).
  assert (ER : row_ c1 k1 = row_ c2 k2).
  { apply (nodup_inj r_p (rows c1)); auto; [rewrite (rows_p n c1 W1); exact D|]. unfold r_p, row_. cbn [fst].
    assert (A : (c_p c1)@k1 <= (c_p c2)@k2).
    { apply (rows_in n) in I2; [|exact W1]. destruct I2 as (i & Hi & Ei). injection Ei as -> _ _ _. now apply M1. }
    assert (B : (c_p c2)@k2 <= (c_p c1)@k1).
    { assert (I1' : In (row_ c1 k1) (rows c2)) by now apply (Permutation_in _ P). apply (rows_in n) in I1'; [|exact W2]. destruct I1' as (i & Hi & Ei). injection Ei as -> _ _ _. now apply M2. }
    lra. }
  unfold row_ in ER. assert (Ru : (c_u c1)@k1 = (c_u c2)@k2) by congruence. assert (Rv : (c_v c1)@k1 = (c_v c2)@k2) by congruence. clear ER I1 I2 row_.
  assert (We1 : wf (S (S n)) (with_ends t c1 s k1)) by (destruct W1 as (X1 & X2 & X3 & X4); unfold wf, with_ends; cbn; repeat split; congruence).
  assert (We2 : wf (S (S n)) (with_ends t c2 s k2)) by (destruct W2 as (X1 & X2 & X3 & X4); unfold wf, with_ends; cbn; repeat split; congruence).
  destruct (sorted_column_ok argsort _ _ HS We1) as (V1 & Q1 & A1). destruct (sorted_column_ok argsort _ _ HS We2) as (V2 & Q2 & A2).
  assert (Es : sorted_column argsort (with_ends t c1 s k1) = sorted_column argsort (with_ends t c2 s k2)).
  { rewrite (rows_fields _ _ V1), (rows_fields _ _ V2).
    assert (Er : rows (sorted_column argsort (with_ends t c1 s k1)) = rows (sorted_column argsort (with_ends t c2 s k2))).
    { apply (sorted_rows_unique r_p).
      - eapply Permutation_trans; [exact Q1|]. eapply Permutation_trans; [|apply Permutation_sym, Q2].
        unfold rows, with_ends. cbn [c_p c_q c_u c_v combine]. rewrite Ru, Rv. do 2 apply perm_skip. exact P.
      - apply (Permutation_NoDup (l := c_p (with_ends t c1 s k1))).
        + apply Permutation_sym. rewrite <- (rows_p _ _ We1). now apply Permutation_map.
        + unfold with_ends. cbn [c_p]. rewrite cast_0. rewrite Forall_forall in F. constructor; [|constructor; [|exact D]].
          * intros [E|E]; [lra|]. apply (F _ E). reflexivity.
          * intros E. apply F in E. lra.
      - rewrite (rows_p _ _ V1). exact A1.
      - rewrite (rows_p _ _ V2). exact A2. }
    now rewrite Er. }
  rewrite Es. reflexivity.
Qed.

Lemma mem_spec x l : mem x l = true <-> In x l.
Proof. unfold mem. destruct (in_dec Req_EM_T x l); split; intros; auto; discriminate. Qed.
Lemma value_at_In f p x : NoDup (map fst f) -> In (p, x) f -> value_at f p = OK x.
Proof.
  induction f as [|[p' x'] f IH]; intros D H; [contradiction|]. cbn [map fst value_at] in *. inversion D as [|? ? Hn D']; subst.
  destruct H as [H|H]; [injection H as -> ->; destruct (Req_EM_T p p); [reflexivity|contradiction]|].
  destruct (Req_EM_T p' p) as [->|]; [|auto]. exfalso. apply Hn. apply in_map_iff. exists (p, x). auto.
Qed.
Lemma value_at_OK f p x : value_at f p = OK x -> In (p, x) f.
Proof.
  induction f as [|[p' x'] f IH]; intros H; [discriminate|]. cbn [value_at] in H. destruct (Req_EM_T p' p) as [->|]; [injection H as ->; now left|right; auto].
Qed.
Lemma sel_levels_ok f levels : (forall p, In p levels -> In p (map fst f)) -> NoDup (map fst f) ->
  exists r, sel_levels f levels = OK r /\ List.length r = List.length levels /\ forall i, (i < List.length levels)%nat -> In (levels@i, r@i) f.
Proof.
  induction levels as [|p l IH]; intros H D.
  - exists []. repeat split. cbn. lia.
  - destruct (IH ltac:(intros; apply H; now right) D) as (r & E & L & Hr). specialize (H p (or_introl eq_refl)). apply in_map_iff in H. destruct H as ([p' x] & Ep & Hx). cbn in Ep. subst p'.
    exists (x :: r). cbn [sel_levels]. rewrite (value_at_In f p x D Hx), E. split; [reflexivity|]. split; [cbn; lia|].
    intros [|i] Hi; [exact Hx|]. apply (Hr i). cbn in Hi. lia.
Qed.
(** The column has exactly the levels present in all three variables, each with its own values. *)
Theorem C79_common_levels order q u v :
  (forall l, Permutation (order l) l) -> NoDup (map fst q) -> NoDup (map fst u) -> NoDup (map fst v) ->
  exists c n, cmip_column order q u v = OK c /\ wf n c /\ NoDup (c_p c) /\
    forall p hq hu hv, In (p, (hq, (hu, hv))) (rows c) <-> In (p, hq) q /\ In (p, hu) u /\ In (p, hv) v.
Proof.
  intros HO Dq Du Dv. unfold cmip_column. set (L := common_levels order (map fst q) (map fst u) (map fst v)).
  assert (HL : forall p, In p L <-> In p (map fst q) /\ In p (map fst u) /\ In p (map fst v)).
  { intros p. unfold L, common_levels. split.
    - intros H. apply (Permutation_in _ (HO _)) in H. apply filter_In in H. destruct H as [H H3]. apply filter_In in H. destruct H as [H H2]. apply nodup_In in H. apply mem_spec in H2, H3. auto.
    - intros (H1 & H2 & H3). apply (Permutation_in _ (Permutation_sym (HO _))). apply filter_In. split; [apply filter_In; split; [now apply nodup_In|]|]; now apply mem_spec. }
  assert (DL : NoDup L) by (apply (Permutation_NoDup (Permutation_sym (HO _))); repeat apply NoDup_filter; apply NoDup_nodup).
  destruct (sel_levels_ok q L ltac:(intros; now apply HL) Dq) as (rq & Eq & Lq & Iq).
  destruct (sel_levels_ok u L ltac:(intros; now apply HL) Du) as (ru & Eu & Lu & Iu).
  destruct (sel_levels_ok v L ltac:(intros; now apply HL) Dv) as (rv & Ev & Lv & Iv).
  rewrite Eq, Eu, Ev. cbn [bind]. exists (mkcolumn L ru rv rq), (List.length L).
  assert (W : wf (List.length L) (mkcolumn L ru rv rq)) by (unfold wf; cbn; auto).
  split; [reflexivity|]. split; [exact W|]. split; [exact DL|]. intros p hq hu hv. rewrite (rows_in _ _ _ W). cbn [c_p c_q c_u c_v]. split.
  - intros (i & Hi & E). injection E as -> -> -> ->. auto.
  - intros (H1 & H2 & H3). assert (HpL : In p L) by (apply HL; repeat split; apply in_map_iff; eexists; split; eauto; reflexivity).
    apply In_nth with (d := 0) in HpL. destruct HpL as (i & Hi & <-). exists i. split; [exact Hi|].
    pose proof (Iq i Hi) as Jq. pose proof (Iu i Hi) as Ju. pose proof (Iv i Hi) as Jv.
    apply (value_at_In _ _ _ Dq) in H1, Jq. apply (value_at_In _ _ _ Du) in H2, Ju. apply (value_at_In _ _ _ Dv) in H3, Jv. congruence.
Qed.
(** So the preprocessed data depend neither on the order in which the set is listed, nor on the order
    of the levels in the three files. *)
Theorem C79_cmip_columns t argsort factor offset tcw s order1 order2 q1 q2 u1 u2 v1 v2 c1 c2 :
  sorts argsort -> (forall l, Permutation (order1 l) l) -> (forall l, Permutation (order2 l) l) ->
  NoDup (map fst q1) -> NoDup (map fst u1) -> NoDup (map fst v1) -> Permutation q1 q2 -> Permutation u1 u2 -> Permutation v1 v2 ->
  (forall p x, In (p, x) q1 -> 0 < p /\ p <> cast t (s_ps s)) -> 0 < cast t (s_ps s) ->
  cmip_column order1 q1 u1 v1 = OK c1 -> cmip_column order2 q2 u2 v2 = OK c2 ->
  preprocess_pressure_column t argsort factor offset tcw c1 s = preprocess_pressure_column t argsort factor offset tcw c2 s.
Proof.
  intros HS O1 O2 Dq Du Dv Pq Pu Pv F Hps E1 E2.
  destruct (C79_common_levels order1 q1 u1 v1 O1 Dq Du Dv) as (c & n1 & E & W1 & D1 & R1). rewrite E1 in E. injection E as <-.
  destruct (C79_common_levels order2 q2 u2 v2 O2 (Permutation_NoDup (Permutation_map fst Pq) Dq) (Permutation_NoDup (Permutation_map fst Pu) Du) (Permutation_NoDup (Permutation_map fst Pv) Dv)) as (c & n2 & E & W2 & D2 & R2). rewrite E2 in E. injection E as <-.
  assert (ND : forall n c, wf n c -> NoDup (c_p c) -> NoDup (rows c)).
  { intros n c W D. apply (NoDup_map_inv r_p). rewrite (rows_p n c W). exact D. }
  assert (P : Permutation (rows c1) (rows c2)).
  { apply NoDup_Permutation; [eapply ND; eauto|eapply ND; eauto|]. intros (p & hq & hu & hv). rewrite R1, R2. split; intros (X1 & X2 & X3); repeat split.
    - now apply (Permutation_in _ Pq). - now apply (Permutation_in _ Pu). - now apply (Permutation_in _ Pv).
    - now apply (Permutation_in _ (Permutation_sym Pq)). - now apply (Permutation_in _ (Permutation_sym Pu)). - now apply (Permutation_in _ (Permutation_sym Pv)). }
  assert (n1 = n2) as <-.
  { apply Permutation_length in P. rewrite <- (map_length r_p (rows c1)), <- (map_length r_p (rows c2)), (rows_p _ _ W1), (rows_p _ _ W2) in P. destruct W1 as [<- _]. destruct W2 as [<- _]. exact P. }
  apply (C79_level_order_is_irrelevant t argsort factor offset tcw n1); auto.
  apply Forall_forall. intros p Hp. rewrite <- (rows_p _ _ W1) in Hp. apply in_map_iff in Hp. destruct Hp as ((p' & hq & hu & hv) & <- & Hr). apply R1 in Hr. apply (F _ hq). apply Hr.
Qed.
(** Non-vacuity: humidity on three levels, winds on two others orders; two levels in common, and the
    layers exist. *)
Ltac dec := repeat match goal with
  | |- context [Req_EM_T ?a ?b] => destruct (Req_EM_T a b); [try (exfalso; lra)|try (exfalso; lra)]; cbn [bind] end.
Example C79_witness :
  let q := [(85000, 1/100); (30000, 1/1000); (50000, 5/1000)] in
  let u := [(30000, 20); (85000, 5); (10000, 30)] in let v := [(85000, 2); (30000, -3)] in
  exists c1 c2 r, cmip_column (fun l => l) q u v = OK c1 /\ cmip_column (@rev R) q u v = OK c2 /\ c1 <> c2 /\ c_p c1 = [85000; 30000] /\
    preprocess_pressure_column Floating argsort0 0 70000 None c1 ex_surface = OK r.
Proof.
  intros q u v.
  assert (M : forall x l, In x l -> mem x l = true) by (intros; now apply mem_spec).
  assert (N : forall x l, ~ In x l -> mem x l = false) by (intros x l H; destruct (mem x l) eqn:E; [apply mem_spec in E; contradiction|reflexivity]).
  assert (L : filter (fun x => mem x (map fst v)) (filter (fun x => mem x (map fst u)) (nodup Req_EM_T (map fst q))) = [85000; 30000]).
  { rewrite (nodup_fixed_point Req_EM_T).
    2: { unfold q. cbn. repeat constructor; cbn; intros H; repeat destruct H as [H|H]; try lra; contradiction. }
    unfold q, u, v. cbn [map fst filter].
    rewrite (M 85000 [30000; 85000; 10000]), (M 30000 [30000; 85000; 10000]), (N 50000 [30000; 85000; 10000]) by (cbn; try tauto; intros H; repeat destruct H as [H|H]; try lra; contradiction).
    cbn [filter]. rewrite (M 85000 [85000; 30000]), (M 30000 [85000; 30000]) by (cbn; tauto). reflexivity. }
  assert (E1 : cmip_column (fun l => l) q u v = OK (mkcolumn [85000; 30000] [5; 20] [2; -3] [1/100; 1/1000])).
  { unfold cmip_column, common_levels. rewrite L. unfold q, u, v. cbn [sel_levels value_at]. dec. reflexivity. }
  assert (E2 : cmip_column (@rev R) q u v = OK (mkcolumn [30000; 85000] [20; 5] [-3; 2] [1/1000; 1/100])).
  { unfold cmip_column, common_levels. rewrite L. unfold q, u, v. cbn [rev app sel_levels value_at]. dec. reflexivity. }
  set (c1 := mkcolumn [85000; 30000] [5; 20] [2; -3] [1/100; 1/1000]) in *.
  assert (W : wf 2 c1) by (repeat split). assert (Hp0 : Forall (fun p => 0 <= p) (c_p c1)) by (repeat constructor; cbn; lra).
  destruct (C49_extension_succeeds Floating argsort0 0 70000 1 c1 ex_surface argsort0_sorts W Hp0 ltac:(cbn; lra)) as [c' E].
  destruct (C49_thicknesses_partial argsort0 0 70000 2 c1 ex_surface c' (0 * s_ps ex_surface + 70000) argsort0_sorts W Hp0 ltac:(cbn; lra) ltac:(cbn; lra) E) as (l & El & _).
  eexists _, _, _. split; [exact E1|]. split; [exact E2|]. split; [intros H; injection H as H _; lra|]. split; [reflexivity|].
  unfold preprocess_pressure_column. rewrite E. cbn [bind]. rewrite El. reflexivity.
Qed.
