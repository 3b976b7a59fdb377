(** * C68: layer contents are integrals of the humidity profile; C69: bounds on contents and fluxes *)
From Coq Require Import Reals Lra Lia Arith ZArith List Bool Sorted Permutation Psatz.
From Verif Require Import Num Arr Interp Levels LayersR Extend Thickness.
From Coquelicot Require Import Coquelicot.
Import ListNotations.
Local Open Scope R_scope.
Local Open Scope list_scope.

Ltac eqR := match goal with |- @eq _ ?a ?b => change (@eq R a b) end.
(** ** Specification *)
(** f is the piecewise linear function through a set of nodes: on the open interval between two
    neighbouring nodes it is the straight line through them *)
Definition linear_profile (nodes : list (R * R)) (f : R -> R) : Prop :=
  forall a fa b fb, In (a, fa) nodes -> In (b, fb) nodes -> a < b -> (forall c fc, In (c, fc) nodes -> ~ a < c < b) ->
  forall x, a < x < b -> f x = fa + (fb - fa) * (x - a) / (b - a).

(** ** Adding a node on the curve does not change it *)
Lemma line_at_unique a b fa fb fb' x : a < x < b -> fa + (fb - fa) * (x - a) / (b - a) = fa + (fb' - fa) * (x - a) / (b - a) -> fb = fb'.
Proof.
  intros H E. assert (0 < (x - a) / (b - a)) by (apply Rdiv_lt_0_compat; lra).
  assert ((fb - fa) * ((x - a) / (b - a)) = (fb' - fa) * ((x - a) / (b - a))) by (unfold Rdiv in *; lra). apply Rmult_eq_reg_r in H1; lra.
Qed.
Lemma line_at_unique_l a b fa fa' fb x : a < x < b -> fa + (fb - fa) * (x - a) / (b - a) = fa' + (fb - fa') * (x - a) / (b - a) -> fa = fa'.
Proof.
  intros H E. assert (0 < (b - x) / (b - a)) by (apply Rdiv_lt_0_compat; lra).
  assert (Q : forall g, g + (fb - g) * (x - a) / (b - a) = g * ((b - x) / (b - a)) + fb * ((x - a) / (b - a))) by (intros; field; lra).
  rewrite !Q in E. assert (fa * ((b - x) / (b - a)) = fa' * ((b - x) / (b - a))) by lra. apply Rmult_eq_reg_r in H1; lra.
Qed.
Lemma profile_add nodes f x0 y0 : linear_profile nodes f -> linear_at nodes x0 y0 -> linear_profile ((x0, y0) :: nodes) f.
Proof.
  intros HP HA a fa b fb Ha Hb Hab Hgap x Hx.
  assert (Hgap' : forall c fc, In (c, fc) nodes -> ~ a < c < b) by (intros c fc H; apply (Hgap c fc); now right).
  destruct HA as [Hin|(a0 & fa0 & b0 & fb0 & Ha0 & Hb0 & Hx0 & Hg0 & Hy0)].
  { apply (HP a fa b fb); auto; destruct Ha as [[= <- <-]|], Hb as [[= <- <-]|]; assumption. }
  assert (Ey : y0 = fa0 + (fb0 - fa0) * (x0 - a0) / (b0 - a0)).
  { apply Rmult_eq_reg_r with (b0 - a0); [|lra]. apply Rplus_eq_reg_r with (- fa0 * (b0 - a0)). field_simplify; [|lra]. lra. }
  destruct Ha as [[= <- <-]|Ha], Hb as [[= <- <-]|Hb]; [lra| | |now apply (HP a fa b fb)].
  - assert (b = b0) as ->. { pose proof (Hgap' b0 fb0 Hb0). pose proof (Hg0 b fb Hb). lra. }
    assert (fb = fb0) as ->.
    { pose proof (HP a0 fa0 b0 fb Ha0 Hb ltac:(lra) Hg0 x ltac:(lra)) as E1. rewrite (HP a0 fa0 b0 fb0 Ha0 Hb0 ltac:(lra) Hg0 x ltac:(lra)) in E1. symmetry. now apply (line_at_unique a0 b0 fa0 _ _ x); [lra|]. }
    rewrite (HP a0 fa0 b0 fb0 Ha0 Hb0 ltac:(lra) Hg0 x ltac:(lra)). rewrite Ey. field. lra.
  - assert (a = a0) as ->. { pose proof (Hgap' a0 fa0 Ha0). pose proof (Hg0 a fa Ha). lra. }
    assert (fa = fa0) as ->.
    { pose proof (HP a0 fa b0 fb0 Ha Hb0 ltac:(lra) Hg0 x ltac:(lra)) as E1. rewrite (HP a0 fa0 b0 fb0 Ha0 Hb0 ltac:(lra) Hg0 x ltac:(lra)) in E1. symmetry. now apply (line_at_unique_l a0 b0 _ _ fb0 x); [lra|]. }
    rewrite (HP a0 fa0 b0 fb0 Ha0 Hb0 ltac:(lra) Hg0 x ltac:(lra)). rewrite Ey. field. lra.
Qed.
Lemma profile_perm nodes nodes' f : Permutation nodes nodes' -> linear_profile nodes f -> linear_profile nodes' f.
Proof.
  intros P H a fa b fb Ha Hb Hab Hg. apply (H a fa b fb); auto; try (apply (Permutation_in _ (Permutation_sym P)); assumption).
  intros c fc Hin. apply (Hg c fc). now apply (Permutation_in _ P).
Qed.

(** ** Integral of a straight line *)
Lemma RInt_line a b fa fb : a < b -> is_RInt (fun x => fa + (fb - fa) * (x - a) / (b - a)) a b ((fa + fb) / 2 * (b - a)).
Proof.
  intros H. set (F := fun x => fa * x + (fb - fa) / (b - a) * (x - a) ^ 2 / 2).
  replace ((fa + fb) / 2 * (b - a)) with (minus (F b) (F a)).
  2: { unfold F, minus, plus, opp; cbn. field. lra. }
  apply (is_RInt_derive F).
  - intros x _. unfold F. auto_derive; [trivial|]. field. lra.
  - intros x _. apply (ex_derive_continuous (fun x => fa + (fb - fa) * (x - a) / (b - a))). auto_derive. lra.
Qed.
Lemma RInt_segment f a b fa fb : a <= b -> (forall x, a < x < b -> f x = fa + (fb - fa) * (x - a) / (b - a)) ->
  is_RInt f a b ((fa + fb) / 2 * (b - a)).
Proof.
  intros [H|<-] Hf.
  - apply (is_RInt_ext (fun x => fa + (fb - fa) * (x - a) / (b - a))); [|now apply RInt_line].
    intros x. rewrite Rmin_left, Rmax_right by lra. intros Hx. symmetry. now apply Hf.
  - replace ((fa + fb) / 2 * (a - a)) with 0 by ring. apply (is_RInt_point (V := R_NormedModule)).
Qed.
(** integrable from the first node to any node *)
Lemma ex_RInt_nodes {A} (key : A -> R) (f : R -> R) l : (forall a b, In (a, b) (consec l) -> ex_RInt f (key a) (key b)) ->
  forall z, In z l -> ex_RInt f (hd 0 (map key l)) (key z).
Proof.
  induction l as [|x l IH]; intros H z Hz; [contradiction|]. cbn [map hd].
  destruct Hz as [->|Hz]; [apply ex_RInt_point|]. destruct l as [|y l]; [contradiction|].
  apply ex_RInt_Chasles with (key y); [apply H; rewrite consec_cons; now left|].
  apply IH; [|exact Hz]. intros a b Hin. apply H. rewrite consec_cons. now right.
Qed.

Section Column.
Variables (argsort : list R -> list nat) (factor offset : R) (n : nat) (c : column) (s : surface) (c' : column) (pb : R).
Hypothesis HS : sorts argsort.
Hypothesis W : wf n c.
Hypothesis Hp : List.Forall (fun p => 0 <= p) (c_p c).
Hypothesis Hps : 0 < s_ps s.
Hypothesis Hbs : pb <= s_ps s.
Hypothesis E : extend_pressurelevels Floating argsort factor offset c s = OK (c', pb).
Variable f : R -> R.
Hypothesis Hf : linear_profile ((s_ps s, s_qs s) :: (0, 0) :: combine (c_p c) (c_q c)) f.
Lemma column_profile : linear_profile (map (fun r => (r_p r, r_q r)) (rows c')) f.
Proof.
  destruct (C49_extended_levels Floating argsort factor offset n c s c' pb HS W Hp Hps E) as (_ & _ & _ & _ & _ & k & ub & vb & qb & _ & _ & P & Lq & _).
  cbn zeta in *. eapply profile_perm; [apply Permutation_map, Permutation_sym, P|]. cbn [map r_p r_q fst snd].
  apply profile_add; [|exact Lq]. destruct (nodes_rows _ _ W) as [<- _]. exact Hf.
Qed.
Lemma column_segment a b : In (a, b) (consec (rows c')) -> is_RInt f (r_p a) (r_p b) ((r_q a + r_q b) / 2 * (r_p b - r_p a)).
Proof.
  intros H. destruct (column_facts Floating argsort factor offset n c s c' pb HS W Hp Hps E) as (Wc & As & _).
  destruct (consec_sorted r_p _ a b As H) as [Hab Hgap]. destruct (consec_in _ _ _ H) as [Ha Hb].
  destruct (Rle_lt_or_eq_dec _ _ Hab) as [Hlt|Heq].
  - apply RInt_segment; [exact Hab|]. apply (column_profile (r_p a) (r_q a) (r_p b) (r_q b)).
    + now apply (in_map (fun r => (r_p r, r_q r))).
    + now apply (in_map (fun r => (r_p r, r_q r))).
    + exact Hlt.
    + intros x fx Hin. apply in_map_iff in Hin. destruct Hin as (r & [= <- <-] & Hr). destruct (Hgap r Hr); lra.
  - apply RInt_segment; [exact Hab|]. intros x Hx. lra.
Qed.
Lemma column_ex z : In z (map r_p (rows c')) -> ex_RInt f 0 z.
Proof.
  intros H. apply in_map_iff in H. destruct H as (r & <- & Hr). destruct (column_facts Floating argsort factor offset n c s c' pb HS W Hp Hps E) as (_ & _ & Hd & _).
  rewrite <- Hd. apply (ex_RInt_nodes r_p); [|exact Hr]. intros a b Hab. eexists. now apply column_segment.
Qed.
Lemma slab_water_integral a b : In (a, b) (consec (rows c')) -> slab_water (slab_of (a, b)) = RInt f 0 (r_p b) / g0 - RInt f 0 (r_p a) / g0.
Proof.
  intros H. assert (Ea := column_ex (r_p a) ltac:(apply in_map; now apply consec_in in H)). assert (S := column_segment a b H).
  assert (Q : RInt f 0 (r_p b) = RInt f 0 (r_p a) + (r_q a + r_q b) / 2 * (r_p b - r_p a)).
  { rewrite <- (RInt_Chasles f 0 (r_p a) (r_p b)); [|exact Ea|eexists; exact S]. rewrite (is_RInt_unique _ _ _ _ S). reflexivity. }
  rewrite Q. unfold slab_water, slab_of. cbn [sl_vals sl_dp]. unfold mid, g0. field.
Qed.
End Column.

(** ** C68 *)
(** The humidity profile is the piecewise linear one through the levels, the surface, and zero at
    the top.  Without total column water the storages are its integrals over the pressure above and
    below the boundary, divided by g; with total column water they are that divided in the same
    proportion.  In particular the inserted boundary level changes nothing in the sum. *)
Theorem C68_storages_are_integrals argsort factor offset n c s tcw r f :
  sorts argsort -> wf n c -> List.Forall (fun p => 0 <= p) (c_p c) -> 0 < s_ps s ->
  let pb := factor * s_ps s + offset in pb <= s_ps s ->
  linear_profile ((s_ps s, s_qs s) :: (0, 0) :: combine (c_p c) (c_q c)) f ->
  preprocess_pressure_column Floating argsort factor offset tcw c s = OK r ->
  ex_RInt f 0 (s_ps s) /\
  (tcw = None -> s_upper r = RInt f 0 pb / g0 /\ s_lower r = RInt f pb (s_ps s) / g0) /\
  (forall w, tcw = Some w -> s_upper r = w * (RInt f 0 pb / RInt f 0 (s_ps s)) /\ s_lower r = w * (RInt f pb (s_ps s) / RInt f 0 (s_ps s))).
Proof.
  intros HS W Hp Hps pb Hbs Hf. unfold preprocess_pressure_column.
  destruct (extend_pressurelevels _ _ _ _ _ _) as [[c' pb']|] eqn:E; [|discriminate]. cbn [bind].
  assert (pb' = pb) as ->. { destruct (C49_extended_levels Floating _ _ _ _ _ _ _ _ HS W Hp Hps E) as [Q _]. exact Q. }
  destruct (column_facts Floating argsort factor offset n c s c' pb HS W Hp Hps E) as (Wc & As & Hd & Hb & I1 & I2 & _).
  rewrite (midpoints_ok _ _ Wc) by (rewrite (rows_p _ _ Wc) in As; exact As). cbn [bind]. intros [= <-].
  assert (X1 := column_ex argsort factor offset n c s c' pb HS W Hp Hps E f Hf _ I1). assert (X2 := column_ex argsort factor offset n c s c' pb HS W Hp Hps E f Hf _ I2). cbn [cast] in X1, X2.
  split; [exact X1|].
  assert (S1 := air_above Floating argsort factor offset n c s c' pb HS W Hp Hps E slab_water (fun x => RInt f 0 x / g0) (s_ps s) I1 (cut_self r_p _ _ As)
    (slab_water_integral argsort factor offset n c s c' pb HS W Hp Hps E f Hf)).
  assert (S2 := air_upper Floating argsort factor offset n c s c' pb HS W Hp Hps E Hbs slab_water (fun x => RInt f 0 x / g0) pb I2 (cut_self r_p _ _ As)
    (slab_water_integral argsort factor offset n c s c' pb HS W Hp Hps E f Hf)).
  set (air := mask_below_surface_data (s_ps s) (map slab_of (consec (rows c')))) in *.
  cbn beta in S1, S2. rewrite RInt_point in S1, S2. change (zero / g0) with (0 / g0) in S1, S2.
  assert (S0 : sum_over air all_of slab_water = RInt f 0 (s_ps s) / g0).
  { rewrite <- (sum_cond_ext air unmasked all_of slab_water); [rewrite S1; unfold g0; field|]. intros [dp [v|]] _; [left; reflexivity|right; reflexivity]. }
  assert (S3 : sum_over air (fun sl => negb (upper_pl (N := Rnum) pb sl)) slab_water = RInt f pb (s_ps s) / g0).
  { assert (Q := sum_split air (upper_pl (N := Rnum) pb) slab_water). rewrite S0 in Q. rewrite S2 in Q.
    assert (C' : RInt f 0 pb + RInt f pb (s_ps s) = RInt f 0 (s_ps s)).
    { apply (RInt_Chasles f); [exact X2|]. apply (ex_RInt_Chasles_2 f 0); [lra|exact X1]. }
    rewrite <- C' in Q. unfold g0 in *. lra. }
  destruct (integrate_eq (upper_pl (N := Rnum) pb) (fun sl => negb (upper_pl (N := Rnum) pb sl)) tcw air) as (E1 & E2 & _). cbn zeta in E1, E2. rewrite E1, E2. rewrite S2, S3.
  split.
  - intros ->. cbn [scale]. unfold g0. split; eqR; field.
  - intros w ->. cbn [scale]. rewrite S0. unfold g0. destruct (Req_dec (RInt f 0 (s_ps s)) 0) as [Z|Z].
    + rewrite Z. unfold Rdiv. rewrite !Rmult_0_l, !Rinv_0. split; eqR; ring.
    + split; eqR; field; auto.
Qed.
