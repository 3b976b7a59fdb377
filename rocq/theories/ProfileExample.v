(** * A humidity profile exists (C68 is not vacuous) *)
From Coq Require Import Reals Lra Lia Arith ZArith List Bool Permutation.
From Verif Require Import Num Arr Interp Levels LayersR Extend Thickness ColumnProps Integral.
Import ListNotations.
Local Open Scope R_scope.
Local Open Scope list_scope.

Lemma profile_exists xp fp : ascending xp -> List.length fp = List.length xp -> (2 <= List.length xp)%nat -> hd 0 xp < last xp 0 ->
  (forall a fa fb, In (a, fa) (combine xp fp) -> In (a, fb) (combine xp fp) -> fa = fb) ->
  exists f, linear_profile (combine xp fp) f.
Proof.
  intros A L n2 HD Hfun. exists (fun x => match interpolate_column x xp fp with OK y => y | Err _ => 0 end).
  intros a fa b fb Ha Hb Hab Hgap x Hx.
  assert (B1 := asc_bounds xp a A (in_combine_l _ _ _ _ Ha)). assert (B2 := asc_bounds xp b A (in_combine_l _ _ _ _ Hb)).
  destruct (interpolate_column_exists x xp fp A L n2 ltac:(lra)) as [y E]. rewrite E.
  destruct (interpolate_column_ok x xp fp y A L n2 HD E) as [C _]. apply on_curve_linear in C; [|exact L|exact A].
  destruct C as [Hin|(a0 & fa0 & b0 & fb0 & Ha0 & Hb0 & Hx0 & Hg0 & Hy)]; [exfalso; exact (Hgap x y Hin Hx)|].
  assert (a0 = a) as -> by (pose proof (Hgap a0 fa0 Ha0); pose proof (Hg0 a fa Ha); lra).
  assert (b0 = b) as -> by (pose proof (Hgap b0 fb0 Hb0); pose proof (Hg0 b fb Hb); lra).
  rewrite (Hfun a fa0 fa Ha0 Ha), (Hfun b fb0 fb Hb0 Hb) in Hy.
  apply Rmult_eq_reg_r with (b - a); [|lra]. field_simplify; [|lra]. lra.
Qed.
Example C68_witness : exists f, linear_profile ((s_ps ex_surface, s_qs ex_surface) :: (0, 0) :: combine (c_p ex_column) (c_q ex_column)) f.
Proof.
  destruct (profile_exists [0; 30000; 85000; 97000 + 1 / 2; 100000] [0; 1 / 1000; 1 / 100; 1 / 50; 2 / 100]) as [f Hf].
  - intros [|[|[|[|i]]]] Hi; cbn in *; try lra. lia.
  - reflexivity.
  - cbn. lia.
  - cbn. lra.
  - intros a fa fb Ha Hb. cbn in Ha, Hb.
    repeat match goal with H : _ \/ _ |- _ => destruct H as [H|H] | H : False |- _ => destruct H end;
      apply pair_equal_spec in Ha; apply pair_equal_spec in Hb; destruct Ha as [H1 H2]; destruct Hb as [H3 H4]; subst fa; subst fb;
      first [reflexivity | exfalso; lra].
  - exists f. eapply profile_perm; [|exact Hf]. cbn.
    apply Permutation_sym. apply Permutation_trans with ((0, 0) :: (97000 + 1 / 2, 1 / 50) :: (85000, 1 / 100) :: (30000, 1 / 1000) :: (100000, 2 / 100) :: []); [apply perm_swap|].
    apply perm_skip. apply Permutation_trans with ((85000, 1 / 100) :: (97000 + 1 / 2, 1 / 50) :: (30000, 1 / 1000) :: (100000, 2 / 100) :: []); [apply perm_swap|].
    apply Permutation_trans with ((85000, 1 / 100) :: (30000, 1 / 1000) :: (97000 + 1 / 2, 1 / 50) :: (100000, 2 / 100) :: []); [apply perm_skip, perm_swap|]. apply perm_swap.
Qed.
