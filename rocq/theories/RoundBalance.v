(** * C83: the mass balance of a tracking step in mixed single and double precision *)
From Coq Require Import Reals Lra Lia Arith Bool ZArith.
From Coq Require Import Floats.SpecFloat.
From Verif Require Import Num Arr Core Track Cells Sums SpecTransport HAdv AdvProps Ieee RoundMass StepR StepProps.
From Flocq Require Import Core BinarySingleNaN.
From Verif Require Import Single RoundStep.
Local Open Scope R_scope.

(** ** C83 *)
(** In the program's mixture of single and double precision, whatever rounding does in a forward step, the tracked moisture that is stored, has been
    lost and has rained out differs from what was there, was tagged and gained by at most [2^-16] (about 1.5e-5) of
    everything stored, accumulated or moved in the step. *)
Theorem C83_forward_mass_balance_float m n (g : grid F64) c F fz S1 S0 region msk (out : fwd_out F64) :
  step_inputs m n g F fz S1 S0 region msk -> data64 m n g c F fz S1 S0 msk ->
  shaped_fwd out m n -> fwd_numbers m n out ->
  (forall i j, (i < m)%nat -> (j < n)%nat -> 0 <= v64 (f_s_upper out) i j /\ 0 <= v64 (f_s_lower out) i j) ->
  exists out', forwardtrack g F fz S1 S0 region out c = OK out' /\ shaped_fwd out' m n /\
    (fwd_numbers m n out' ->
     let T := Total m n (fun i => r64 (g_area g i)) in
     Rabs (T (fun i j => v64 (f_s_upper out') i j + v64 (f_s_lower out') i j)
           + T (incr64 (f_losses out') (f_losses out))
           + T (incr64 (f_p_upper out') (f_p_upper out)) + T (incr64 (f_p_lower out') (f_p_lower out))
           - (T (fun i j => v64 (f_s_upper out) i j + v64 (f_s_lower out) i j)
              + T (incr64 (f_tagged out') (f_tagged out))
              + T (incr64 (f_gains out') (f_gains out))))
     <= powerRZ 2 (-16) * fwd_magnitude m n g c F fz out out').
Proof.
  intros H D Ho (Nsu & Nsl & Npu & Npl & Nt & Nlo & Nga) Pst. fwd_cells H. exists out'.
  split; [exact E|]. split; [exact Hs|]. intros (Osu & Osl & Opu & Opl & Ot & Olo & Oga). cbv zeta.
  pose proof (si_m _ _ _ _ _ _ _ _ _ H) as Hm. pose proof (si_n _ _ _ _ _ _ _ _ _ H) as Hn.
  destruct (si_F _ _ _ _ _ _ _ _ _ H) as (Sxu & Sxl & Syu & Syl & _ & _).
  destruct D as [Da [[Ddt _] Pdt] Dk Dxu Dyu Dxl Dyl De Dp Dfz Dm Dtu Dtl Dfu Dfl Dpos].
  set (per := periodic c) in *.
  set (rl := @fw_rl F64 S0 out). set (ru := @fw_ru F64 S0 out).
  assert (Vrl : forall i j, (i < m)%nat -> (j < n)%nat -> is_f64 (rl i j)).
  { intros i j Hi Hj. apply rel_f64; [apply Nsl|apply Dfl]; auto. }
  assert (Vru : forall i j, (i < m)%nat -> (j < n)%nat -> is_f64 (ru i j)).
  { intros i j Hi Hj. apply rel_f64; [apply Nsu|apply Dfu]; auto. }
  set (al := @hadv F64 m n per rl (@stagx F64 n per (at_ (fx_lower F))) (@stagy F64 per (at_ (fy_lower F)))).
  set (au := @hadv F64 m n per ru (@stagx F64 n per (at_ (fx_upper F))) (@stagy F64 per (at_ (fy_upper F)))).
  assert (Val : forall i j, (i < m)%nat -> (j < n)%nat -> is_f64 (al i j)) by (intros; now apply (ad_f64 m n per false)).
  assert (Vau : forall i j, (i < m)%nat -> (j < n)%nat -> is_f64 (au i j)) by (intros; now apply (ad_f64 m n per false)).
  assert (Vpl : forall i j, (i < m)%nat -> (j < n)%nat -> is_f64 (f64_store (f64_mul (@fw_pl F64 F S0 i j) (rl i j)))).
  { intros i j Hi Hj. apply store_f64, mul_f64; auto. apply frac_f64; [apply Dp|apply Dfl|apply Dfu|apply Dfl]; auto. }
  assert (Vpu : forall i j, (i < m)%nat -> (j < n)%nat -> is_f64 (f64_store (f64_mul (@fw_pu F64 F S0 i j) (ru i j)))).
  { intros i j Hi Hj. apply store_f64, mul_f64; auto. apply frac_f64; [apply Dp|apply Dfu|apply Dfu|apply Dfl]; auto. }
  assert (Vsrc : forall i j, (i < m)%nat -> (j < n)%nat -> is_f64 (f64_mul (msk i j) (at_ (evap F) i j))).
  { intros i j Hi Hj. apply mul_f64; [apply Dm|apply De]; auto. }
  assert (Vva : forall i j, (i < m)%nat -> (j < n)%nat -> is_f64 (@vadv F64 (at_ fz i j) (rl i j) (ru i j))).
  { intros i j Hi Hj. apply vadv_f64; auto. }
  assert (Vvd : forall i j, (i < m)%nat -> (j < n)%nat -> is_f64 (@vdisp F64 (kvf c) (at_ fz i j) (rl i j) (ru i j))).
  { intros i j Hi Hj. apply vdisp_f64; auto. }
  set (tl := @fw_tl F64 m n g c F fz S0 msk out). set (tu := @fw_tu F64 m n g c F fz S0 out).
  assert (Vtl : forall i j, (i < m)%nat -> (j < n)%nat -> is_f64 (tl i j)).
  { intros i j Hi Hj. unfold tl, fw_tl, fwd_lower. cbn [nadd nmul nsub ndiv nstore F64]. fold rl ru per.
    apply store_f64, add_f64; [now apply Nsl|]. apply mul_f64; [assumption|]. apply sub_f64; [|now apply Vpl].
    apply add_f64; [|now apply Vsrc]. apply add_f64; [|now apply Vvd]. apply add_f64; [|now apply Vva]. apply div_f64; [now apply Val|now apply Da]. }
  assert (Vtu : forall i j, (i < m)%nat -> (j < n)%nat -> is_f64 (tu i j)).
  { intros i j Hi Hj. unfold tu, fw_tu, fwd_upper. cbn [nadd nmul nsub ndiv nstore F64]. fold rl ru per.
    apply store_f64, add_f64; [now apply Nsu|]. apply mul_f64; [assumption|]. apply sub_f64; [|now apply Vpu].
    apply sub_f64; [|now apply Vvd]. apply sub_f64; [|now apply Vva]. apply div_f64; [now apply Vau|now apply Da]. }
  assert (Etl : forall i j, tl i j = f64_store (f64_add (at_ (f_s_lower out) i j) (f64_mul (timestep c) (f64_sub (f64_add (f64_add (f64_add (f64_div (al i j) (g_area g i))
          (@vadv F64 (at_ fz i j) (rl i j) (ru i j))) (@vdisp F64 (kvf c) (at_ fz i j) (rl i j) (ru i j))) (f64_mul (msk i j) (at_ (evap F) i j)))
          (f64_store (f64_mul (@fw_pl F64 F S0 i j) (rl i j))))))) by (intros; reflexivity).
  assert (Etu : forall i j, tu i j = f64_store (f64_add (at_ (f_s_upper out) i j) (f64_mul (timestep c) (f64_sub (f64_sub (f64_sub (f64_div (au i j) (g_area g i))
          (@vadv F64 (at_ fz i j) (rl i j) (ru i j))) (@vdisp F64 (kvf c) (at_ fz i j) (rl i j) (ru i j)))
          (f64_store (f64_mul (@fw_pu F64 F S0 i j) (ru i j))))))) by (intros; reflexivity).
  assert (Ek : forall i j, @fw_corr F64 m n g c F fz S1 S0 msk out i j = @corr_cell F64 (bdry m n per i j) (tu i j) (tl i j) (at_ (s_upper S1) i j) (at_ (s_lower S1) i j)) by (intros; reflexivity).
  clearbody tl tu.
  (* everything in between is finite, because the results are *)
  assert (Fin : forall i j, (i < m)%nat -> (j < n)%nat -> finite64 (tu i j) = true /\ finite64 (tl i j) = true).
  { intros i j Hi Hj. destruct (Hc i j Hi Hj) as (E1 & E2 & E3 & E4 & E5 & E6 & E7). rewrite Ek in E1, E2, E6, E7.
    destruct (Dtu i j Hi Hj) as [? ?]. destruct (Dtl i j Hi Hj) as [? ?]. destruct (Dpos i j Hi Hj) as (? & ? & _).
    pose proof (proj2 (Osu i j Hi Hj)) as G1. pose proof (proj2 (Osl i j Hi Hj)) as G2.
    pose proof (proj2 (Olo i j Hi Hj)) as G3. pose proof (proj2 (Oga i j Hi Hj)) as G4. rewrite E1 in G1. rewrite E2 in G2. rewrite E6 in G3. rewrite E7 in G4.
    change (@nadd F64) with f64_add in G3, G4. change (@nstore F64) with f64_store in G3, G4. apply store_fin_inv, add_fin in G3. apply store_fin_inv, add_fin in G4.
    destruct (corr_residual (@bdry m n per i j) (tu i j) (tl i j) (at_ (s_upper S1) i j) (at_ (s_lower S1) i j)) as (? & ? & _); auto; tauto. }
  assert (Fl : forall i j, (i < m)%nat -> (j < n)%nat -> finite64 (al i j) = true /\ finite64 (@vadv F64 (at_ fz i j) (rl i j) (ru i j)) = true /\
                finite64 (@vdisp F64 (kvf c) (at_ fz i j) (rl i j) (ru i j)) = true).
  { intros i j Hi Hj. destruct (Fin i j Hi Hj) as [_ G]. rewrite Etl in G. exact (tl_fin _ _ _ _ _ _ _ _ G). }
  assert (Fu : forall i j, (i < m)%nat -> (j < n)%nat -> finite64 (au i j) = true).
  { intros i j Hi Hj. destruct (Fin i j Hi Hj) as [G _]. rewrite Etu in G. exact (tu_fin _ _ _ _ _ _ _ G). }
  assert (Brl : forall i j, (i < m)%nat -> (j < n)%nat -> 0 <= r64 (rl i j) <= 1).
  { intros i j Hi Hj. destruct (Fl i j Hi Hj) as (_ & _ & G). apply vdisp_fin in G. destruct (Dpos i j Hi Hj) as (_ & _ & ? & ?). destruct (Pst i j Hi Hj).
    apply (rel64 (at_ (f_s_lower out) i j) (at_ (s_lower S0) i j)); [apply Nsl|apply Dfl| | |apply G]; auto. }
  assert (Bru : forall i j, (i < m)%nat -> (j < n)%nat -> 0 <= r64 (ru i j) <= 1).
  { intros i j Hi Hj. destruct (Fl i j Hi Hj) as (_ & _ & G). apply vdisp_fin in G. destruct (Dpos i j Hi Hj) as (_ & _ & ? & ?). destruct (Pst i j Hi Hj).
    apply (rel64 (at_ (f_s_upper out) i j) (at_ (s_upper S0) i j)); [apply Nsu|apply Dfu| | |apply G]; auto. }
  pose proof (layer_total m n per false rl (fx_lower F) (fy_lower F) Hm Hn Sxl Syl Dxl Dyl Vrl (fun i j Hi Hj => proj1 (Fl i j Hi Hj)) Brl) as Tl.
  pose proof (layer_total m n per false ru (fx_upper F) (fy_upper F) Hm Hn Sxu Syu Dxu Dyu Vru Fu Bru) as Tu.
  fold al in Tl. fold au in Tu.
  pose (W := fun i j => mag (f_s_upper out) i j + mag (f_s_lower out) i j
      + (mag (f_tagged out) i j + mag (f_tagged out') i j + mag (f_p_upper out) i j + mag (f_p_upper out') i j
         + mag (f_p_lower out) i j + mag (f_p_lower out') i j + mag (f_losses out') i j + mag (f_gains out') i j)
      + r64 (timestep c) * ((1 + Rabs (r64 (kvf c))) * mag fz i j)).
  pose (X := fun i j => v64 (f_s_upper out') i j + v64 (f_s_lower out') i j + incr64 (f_losses out') (f_losses out) i j
      + incr64 (f_p_upper out') (f_p_upper out) i j + incr64 (f_p_lower out') (f_p_lower out) i j
      - (v64 (f_s_upper out) i j + v64 (f_s_lower out) i j) - incr64 (f_tagged out') (f_tagged out) i j - incr64 (f_gains out') (f_gains out) i j).
  assert (Q := totals m n (fun i => r64 (g_area g i)) (fun i Hi => proj2 (Da i Hi)) (r64 (timestep c)) Pdt (fun i j => r64 (al i j)) (fun i j => r64 (au i j)) X W
      (fun i j => mag (fx_lower F) i j + mag (fy_lower F) i j) (fun i j => mag (fx_upper F) i j + mag (fy_upper F) i j)).
  assert (Final : Rabs (Total m n (fun i => r64 (g_area g i)) X) <= powerRZ 2 (-16) * fwd_magnitude m n g c F fz out out').
  { unfold fwd_magnitude. cbv zeta.
    eapply Rle_trans; [apply Q|].
    - intros i j Hi Hj. cbv beta. destruct (Hc i j Hi Hj) as (E1 & E2 & E3 & E4 & E5 & E6 & E7).
      destruct (Fl i j Hi Hj) as (Fal & Fva & Fvd). destruct (Fin i j Hi Hj) as [Ftu Ftl]. destruct (Dpos i j Hi Hj) as (P1 & P2 & _).
      destruct (vadv64 (at_ fz i j) (rl i j) (ru i j) (Dfz i j Hi Hj) (Vrl i j Hi Hj) (Vru i j Hi Hj) (Brl i j Hi Hj) (Bru i j Hi Hj) Fva) as [_ Z1].
      destruct (vdisp64 (kvf c) (at_ fz i j) (rl i j) (ru i j) Dk (Dfz i j Hi Hj) (Vrl i j Hi Hj) (Vru i j Hi Hj) (Brl i j Hi Hj) (Bru i j Hi Hj) Fvd) as [_ Z2].
      assert (ZV : Rabs (r64 (@vadv F64 (at_ fz i j) (rl i j) (ru i j))) + Rabs (r64 (@vdisp F64 (kvf c) (at_ fz i j) (rl i j) (ru i j)))
          <= 2 * ((1 + Rabs (r64 (kvf c))) * mag fz i j) + 2 * tiny32) by (unfold mag, v64; lra).
      rewrite Ek, Etl, Etu in E1, E2, E6, E7. rewrite Etl in Ftl. rewrite Etu in Ftu.
      change (@nadd F64) with f64_add in E3, E4, E5, E6, E7. change (@nstore F64) with f64_store in E3, E4, E5, E6, E7. change (@nmul F64) with f64_mul in E3, E4, E5.
      fold ru in E3. fold rl in E4.
      pose proof (Osu i j Hi Hj) as [_ O1]. pose proof (Osl i j Hi Hj) as [_ O2]. pose proof (Opu i j Hi Hj) as [_ O3].
      pose proof (Opl i j Hi Hj) as [_ O4]. pose proof (Ot i j Hi Hj) as [_ O5]. pose proof (Olo i j Hi Hj) as [_ O6]. pose proof (Oga i j Hi Hj) as [_ O7].
      rewrite E1 in O1. rewrite E2 in O2. rewrite E3 in O3. rewrite E4 in O4. rewrite E5 in O5. rewrite E6 in O6. rewrite E7 in O7.
      pose proof (forward_column64 (@bdry m n per i j) (at_ (f_s_lower out) i j) (at_ (f_s_upper out) i j) (al i j) (au i j) (g_area g i)
        (@vadv F64 (at_ fz i j) (rl i j) (ru i j)) (@vdisp F64 (kvf c) (at_ fz i j) (rl i j) (ru i j)) (f64_mul (msk i j) (at_ (evap F) i j))
        (f64_store (f64_mul (@fw_pl F64 F S0 i j) (rl i j))) (f64_store (f64_mul (@fw_pu F64 F S0 i j) (ru i j))) (timestep c)
        (at_ (f_tagged out) i j) (at_ (f_p_lower out) i j) (at_ (f_p_upper out) i j) (at_ (f_losses out) i j) (at_ (f_gains out) i j)
        (at_ (s_upper S1) i j) (at_ (s_lower S1) i j) ((1 + Rabs (r64 (kvf c))) * mag fz i j)
        (proj1 (Nsl i j Hi Hj)) (proj1 (Nsu i j Hi Hj)) (Val i j Hi Hj) (Vau i j Hi Hj) (proj1 (proj1 (Da i Hi))) (Vva i j Hi Hj) (Vvd i j Hi Hj)
        (Vsrc i j Hi Hj) (Vpl i j Hi Hj) (Vpu i j Hi Hj) Ddt (proj1 (Nt i j Hi Hj)) (proj1 (Npl i j Hi Hj)) (proj1 (Npu i j Hi Hj))
        (proj1 (Nlo i j Hi Hj)) (proj1 (Nga i j Hi Hj)) (proj1 (Dtu i j Hi Hj)) (proj1 (Dtl i j Hi Hj)) (proj2 (Dtu i j Hi Hj)) (proj2 (Dtl i j Hi Hj)) P1 P2
        ltac:(pose proof (proj2 (Da i Hi)); lra) Pdt ZV Ftl Ftu O1 O2 O5 O4 O3 O6 O7) as G.
      unfold X, W, incr64, mag, v64. rewrite E1, E2, E3, E4, E5, E6, E7. exact G.
    - intros i j Hi Hj. unfold W, mag, v64. pose proof (Rabs_pos (r64 (kvf c))).
      repeat apply Rplus_le_le_0_compat; try apply Rabs_pos. apply Rmult_le_pos; [exact Pdt|]. apply Rmult_le_pos; [lra|apply Rabs_pos].
    - apply Sum2_nonneg. intros. apply Rplus_le_le_0_compat; apply Rabs_pos.
    - apply Sum2_nonneg. intros. apply Rplus_le_le_0_compat; apply Rabs_pos.
    - exact Tl.
    - exact Tu.
    - right. f_equal. f_equal. f_equal. rewrite <- Sum2_plus. apply Sum2_ext. intros. ring. }
  refine (eq_ind _ (fun z => Rabs z <= _) Final _ _). unfold X. rewrite !Total_minus, !Total_plus. ring.
Qed.

(** The same for a backward step: what is stored, has been lost and has been given back to the surface as tracked
    evaporation, against what was there, was tagged and gained. The storages of a column do not overflow when added. *)
Theorem C83_backward_mass_balance_float m n (g : grid F64) c F fz S1 S0 region msk (out : bwd_out F64) :
  step_inputs m n g F fz S1 S0 region msk -> data64 m n g c F fz S0 S1 msk ->
  (forall i j, (i < m)%nat -> (j < n)%nat -> num64 (f64_store (f64_add (at_ (s_upper S1) i j) (at_ (s_lower S1) i j))) /\ powerRZ 2 (-100) <= v64 (s_upper S1) i j + v64 (s_lower S1) i j) ->
  shaped_bwd out m n -> bwd_numbers m n out ->
  (forall i j, (i < m)%nat -> (j < n)%nat -> 0 <= v64 (b_s_upper out) i j /\ 0 <= v64 (b_s_lower out) i j) ->
  exists out', backtrack g F fz S1 S0 region out c = OK out' /\ shaped_bwd out' m n /\
    (bwd_numbers m n out' ->
     let T := Total m n (fun i => r64 (g_area g i)) in
     Rabs (T (fun i j => v64 (b_s_upper out') i j + v64 (b_s_lower out') i j)
           + T (incr64 (b_losses out') (b_losses out))
           + T (incr64 (b_e_track out') (b_e_track out))
           - (T (fun i j => v64 (b_s_upper out) i j + v64 (b_s_lower out) i j)
              + T (incr64 (b_tagged out') (b_tagged out))
              + T (incr64 (b_gains out') (b_gains out))))
     <= powerRZ 2 (-16) * bwd_magnitude m n g c F fz out out').
Proof.
  intros H D Dsum Ho (Nsu & Nsl & Net & Nt & Nlo & Nga) Pst. bwd_cells H. exists out'.
  split; [exact E|]. split; [exact Hs|]. intros (Osu & Osl & Oet & Ot & Olo & Oga). cbv zeta.
  pose proof (si_m _ _ _ _ _ _ _ _ _ H) as Hm. pose proof (si_n _ _ _ _ _ _ _ _ _ H) as Hn.
  destruct (si_F _ _ _ _ _ _ _ _ _ H) as (Sxu & Sxl & Syu & Syl & _ & _).
  destruct D as [Da [[Ddt _] Pdt] Dk Dxu Dyu Dxl Dyl De Dp Dfz Dm Dtu Dtl Dfu Dfl Dpos].
  set (per := periodic c) in *.
  set (rl := @bw_rl F64 S1 out). set (ru := @bw_ru F64 S1 out).
  assert (Vrl : forall i j, (i < m)%nat -> (j < n)%nat -> is_f64 (rl i j)).
  { intros i j Hi Hj. apply rel_f64; [apply Nsl|apply Dfl]; auto. }
  assert (Vru : forall i j, (i < m)%nat -> (j < n)%nat -> is_f64 (ru i j)).
  { intros i j Hi Hj. apply rel_f64; [apply Nsu|apply Dfu]; auto. }
  set (al := @hadv F64 m n per rl (opp (@stagx F64 n per (at_ (fx_lower F)))) (opp (@stagy F64 per (at_ (fy_lower F))))).
  set (au := @hadv F64 m n per ru (opp (@stagx F64 n per (at_ (fx_upper F)))) (opp (@stagy F64 per (at_ (fy_upper F))))).
  assert (Val : forall i j, (i < m)%nat -> (j < n)%nat -> is_f64 (al i j)) by (intros; now apply (ad_f64 m n per true)).
  assert (Vau : forall i j, (i < m)%nat -> (j < n)%nat -> is_f64 (au i j)) by (intros; now apply (ad_f64 m n per true)).
  set (P := fun i j => f64_mul (msk i j) (at_ (precip F) i j)).
  assert (VP : forall i j, (i < m)%nat -> (j < n)%nat -> is_f64 (P i j)).
  { intros i j Hi Hj. apply mul_f64; [apply Dm|apply Dp]; auto. }
  assert (Vpl : forall i j, (i < m)%nat -> (j < n)%nat -> is_f64 (@bw_pl F64 F S1 msk i j)).
  { intros i j Hi Hj. apply wfrac_f64; [apply VP|apply Dfl|apply Dfu|apply Dfl]; auto. }
  assert (Vpu : forall i j, (i < m)%nat -> (j < n)%nat -> is_f64 (@bw_pu F64 F S1 msk i j)).
  { intros i j Hi Hj. apply wfrac_f64; [apply VP|apply Dfu|apply Dfu|apply Dfl]; auto. }
  assert (Vq : forall i j, (i < m)%nat -> (j < n)%nat -> is_f64 (f64_store (f64_mul (at_ (evap F) i j) (rl i j)))).
  { intros i j Hi Hj. apply store_f64, mul_f64; [apply De|apply Vrl]; auto. }
  set (nf := fun i j => SFopp (at_ fz i j)).
  assert (Vnf : forall i j, (i < m)%nat -> (j < n)%nat -> is_f64 (nf i j)) by (intros; apply opp_f64; now apply Dfz).
  assert (Mnf : forall i j, Rabs (r64 (nf i j)) = mag fz i j) by (intros; unfold nf; now rewrite opp_r64, Rabs_Ropp).
  assert (Vva : forall i j, (i < m)%nat -> (j < n)%nat -> is_f64 (@vadv F64 (nf i j) (rl i j) (ru i j))).
  { intros i j Hi Hj. apply vadv_f64; auto. }
  assert (Vvd : forall i j, (i < m)%nat -> (j < n)%nat -> is_f64 (@vdisp F64 (kvf c) (nf i j) (rl i j) (ru i j))).
  { intros i j Hi Hj. apply vdisp_f64; auto. }
  set (tl := @bw_tl F64 m n g c F fz S1 msk out). set (tu := @bw_tu F64 m n g c F fz S1 msk out).
  assert (Vtl : forall i j, (i < m)%nat -> (j < n)%nat -> is_f64 (tl i j)).
  { intros i j Hi Hj. unfold tl, bw_tl, bwd_lower. cbn [nadd nmul nsub ndiv nstore F64]. fold rl ru per.
    apply store_f64, add_f64; [now apply Nsl|]. apply mul_f64; [assumption|]. apply sub_f64; [|now apply Vq].
    apply add_f64; [|now apply Vpl]. apply add_f64; [|now apply Vvd]. apply add_f64; [|now apply Vva]. apply div_f64; [now apply Val|now apply Da]. }
  assert (Vtu : forall i j, (i < m)%nat -> (j < n)%nat -> is_f64 (tu i j)).
  { intros i j Hi Hj. unfold tu, bw_tu, bwd_upper. cbn [nadd nmul nsub ndiv nstore F64]. fold rl ru per.
    apply store_f64, add_f64; [now apply Nsu|]. apply mul_f64; [assumption|]. apply add_f64; [|now apply Vpu].
    apply sub_f64; [|now apply Vvd]. apply sub_f64; [|now apply Vva]. apply div_f64; [now apply Vau|now apply Da]. }
  assert (Etl : forall i j, tl i j = f64_store (f64_add (at_ (b_s_lower out) i j) (f64_mul (timestep c) (f64_sub (f64_add (f64_add (f64_add (f64_div (al i j) (g_area g i))
          (@vadv F64 (nf i j) (rl i j) (ru i j))) (@vdisp F64 (kvf c) (nf i j) (rl i j) (ru i j))) (@bw_pl F64 F S1 msk i j))
          (f64_store (f64_mul (at_ (evap F) i j) (rl i j))))))) by (intros; reflexivity).
  assert (Etu : forall i j, tu i j = f64_store (f64_add (at_ (b_s_upper out) i j) (f64_mul (timestep c) (f64_add (f64_sub (f64_sub (f64_div (au i j) (g_area g i))
          (@vadv F64 (nf i j) (rl i j) (ru i j))) (@vdisp F64 (kvf c) (nf i j) (rl i j) (ru i j)))
          (@bw_pu F64 F S1 msk i j))))) by (intros; reflexivity).
  assert (Ek : forall i j, @bw_corr F64 m n g c F fz S1 S0 msk out i j = @corr_cell F64 (bdry m n per i j) (tu i j) (tl i j) (at_ (s_upper S0) i j) (at_ (s_lower S0) i j)) by (intros; reflexivity).
  clearbody tl tu.
  (* everything in between is finite, because the results are *)
  assert (Fin : forall i j, (i < m)%nat -> (j < n)%nat -> finite64 (tu i j) = true /\ finite64 (tl i j) = true).
  { intros i j Hi Hj. destruct (Hc i j Hi Hj) as (E1 & E2 & E3 & E5 & E6 & E7). rewrite Ek in E1, E2, E6, E7.
    destruct (Dtu i j Hi Hj) as [? ?]. destruct (Dtl i j Hi Hj) as [? ?]. destruct (Dpos i j Hi Hj) as (? & ? & _).
    pose proof (proj2 (Osu i j Hi Hj)) as G1. pose proof (proj2 (Osl i j Hi Hj)) as G2.
    pose proof (proj2 (Olo i j Hi Hj)) as G3. pose proof (proj2 (Oga i j Hi Hj)) as G4. rewrite E1 in G1. rewrite E2 in G2. rewrite E6 in G3. rewrite E7 in G4.
    change (@nadd F64) with f64_add in G3, G4. change (@nstore F64) with f64_store in G3, G4. apply store_fin_inv, add_fin in G3. apply store_fin_inv, add_fin in G4.
    destruct (corr_residual (@bdry m n per i j) (tu i j) (tl i j) (at_ (s_upper S0) i j) (at_ (s_lower S0) i j)) as (? & ? & _); auto; tauto. }
  assert (Fl : forall i j, (i < m)%nat -> (j < n)%nat -> finite64 (al i j) = true /\ finite64 (@vadv F64 (nf i j) (rl i j) (ru i j)) = true /\
                finite64 (@vdisp F64 (kvf c) (nf i j) (rl i j) (ru i j)) = true).
  { intros i j Hi Hj. destruct (Fin i j Hi Hj) as [_ G]. rewrite Etl in G. exact (tl_fin _ _ _ _ _ _ _ _ G). }
  assert (Fpl : forall i j, (i < m)%nat -> (j < n)%nat -> finite64 (@bw_pl F64 F S1 msk i j) = true).
  { intros i j Hi Hj. destruct (Fin i j Hi Hj) as [_ G]. rewrite Etl in G. exact (tl_fin3 _ _ _ _ _ _ _ _ G). }
  assert (Fu : forall i j, (i < m)%nat -> (j < n)%nat -> finite64 (au i j) = true /\ finite64 (@bw_pu F64 F S1 msk i j) = true).
  { intros i j Hi Hj. destruct (Fin i j Hi Hj) as [G _]. rewrite Etu in G. exact (btu_fin _ _ _ _ _ _ _ G). }
  assert (Brl : forall i j, (i < m)%nat -> (j < n)%nat -> 0 <= r64 (rl i j) <= 1).
  { intros i j Hi Hj. destruct (Fl i j Hi Hj) as (_ & _ & G). apply vdisp_fin in G. destruct (Dpos i j Hi Hj) as (_ & _ & ? & ?). destruct (Pst i j Hi Hj).
    apply (rel64 (at_ (b_s_lower out) i j) (at_ (s_lower S1) i j)); [apply Nsl|apply Dfl| | |apply G]; auto. }
  assert (Bru : forall i j, (i < m)%nat -> (j < n)%nat -> 0 <= r64 (ru i j) <= 1).
  { intros i j Hi Hj. destruct (Fl i j Hi Hj) as (_ & _ & G). apply vdisp_fin in G. destruct (Dpos i j Hi Hj) as (_ & _ & ? & ?). destruct (Pst i j Hi Hj).
    apply (rel64 (at_ (b_s_upper out) i j) (at_ (s_upper S1) i j)); [apply Nsu|apply Dfu| | |apply G]; auto. }
  pose proof (layer_total m n per true rl (fx_lower F) (fy_lower F) Hm Hn Sxl Syl Dxl Dyl Vrl (fun i j Hi Hj => proj1 (Fl i j Hi Hj)) Brl) as Tl.
  pose proof (layer_total m n per true ru (fx_upper F) (fy_upper F) Hm Hn Sxu Syu Dxu Dyu Vru (fun i j Hi Hj => proj1 (Fu i j Hi Hj)) Bru) as Tu.
  cbn [sg] in Tl, Tu. fold al in Tl. fold au in Tu.
  pose (W := fun i j => mag (b_s_upper out) i j + mag (b_s_lower out) i j
      + (mag (b_tagged out) i j + mag (b_tagged out') i j + mag (b_e_track out) i j + mag (b_e_track out') i j
         + mag (b_losses out') i j + mag (b_gains out') i j)
      + r64 (timestep c) * ((1 + Rabs (r64 (kvf c))) * mag fz i j)).
  pose (X := fun i j => v64 (b_s_upper out') i j + v64 (b_s_lower out') i j + incr64 (b_losses out') (b_losses out) i j
      + incr64 (b_e_track out') (b_e_track out) i j
      - (v64 (b_s_upper out) i j + v64 (b_s_lower out) i j) - incr64 (b_tagged out') (b_tagged out) i j - incr64 (b_gains out') (b_gains out) i j).
  assert (Q := totals m n (fun i => r64 (g_area g i)) (fun i Hi => proj2 (Da i Hi)) (r64 (timestep c)) Pdt (fun i j => r64 (al i j)) (fun i j => r64 (au i j)) X W
      (fun i j => mag (fx_lower F) i j + mag (fy_lower F) i j) (fun i j => mag (fx_upper F) i j + mag (fy_upper F) i j)).
  assert (Final : Rabs (Total m n (fun i => r64 (g_area g i)) X) <= powerRZ 2 (-16) * bwd_magnitude m n g c F fz out out').
  { unfold bwd_magnitude. cbv zeta.
    eapply Rle_trans; [apply Q|].
    - intros i j Hi Hj. cbv beta. destruct (Hc i j Hi Hj) as (E1 & E2 & E3 & E5 & E6 & E7).
      destruct (Fl i j Hi Hj) as (Fal & Fva & Fvd). destruct (Fu i j Hi Hj) as [_ Fpu]. specialize (Fpl i j Hi Hj). destruct (Fin i j Hi Hj) as [Ftu Ftl]. destruct (Dpos i j Hi Hj) as (P1 & P2 & P3 & P4).
      destruct (vadv64 (nf i j) (rl i j) (ru i j) (Vnf i j Hi Hj) (Vrl i j Hi Hj) (Vru i j Hi Hj) (Brl i j Hi Hj) (Bru i j Hi Hj) Fva) as [_ Z1].
      destruct (vdisp64 (kvf c) (nf i j) (rl i j) (ru i j) Dk (Vnf i j Hi Hj) (Vrl i j Hi Hj) (Vru i j Hi Hj) (Brl i j Hi Hj) (Bru i j Hi Hj) Fvd) as [_ Z2].
      assert (ZV : Rabs (r64 (@vadv F64 (nf i j) (rl i j) (ru i j))) + Rabs (r64 (@vdisp F64 (kvf c) (nf i j) (rl i j) (ru i j)))
          <= 2 * ((1 + Rabs (r64 (kvf c))) * mag fz i j) + 2 * tiny32) by (rewrite Mnf in Z1, Z2; lra).
      destruct (share64 (P i j) (at_ (s_lower S1) i j) (at_ (s_upper S1) i j) (VP i j Hi Hj) (proj1 (Dfl i j Hi Hj)) (proj1 (Dfu i j Hi Hj)) P4 P3 (proj2 (proj1 (Dsum i j Hi Hj))) (proj2 (Dsum i j Hi Hj)) Fpl Fpu) as [Z3 Z4].
      rewrite Ek, Etl, Etu in E1, E2, E6, E7. rewrite Etl in Ftl. rewrite Etu in Ftu.
      change (@nadd F64) with f64_add in E3, E5, E6, E7. change (@nstore F64) with f64_store in E3, E5, E6, E7. change (@nmul F64) with f64_mul in E3, E5.
      fold rl in E3.
      pose proof (Osu i j Hi Hj) as [_ O1]. pose proof (Osl i j Hi Hj) as [_ O2]. pose proof (Oet i j Hi Hj) as [_ O3].
      pose proof (Ot i j Hi Hj) as [_ O5]. pose proof (Olo i j Hi Hj) as [_ O6]. pose proof (Oga i j Hi Hj) as [_ O7].
      rewrite E1 in O1. rewrite E2 in O2. rewrite E3 in O3. rewrite E5 in O5. rewrite E6 in O6. rewrite E7 in O7.
      pose proof (backward_column64 (@bdry m n per i j) (at_ (b_s_lower out) i j) (at_ (b_s_upper out) i j) (al i j) (au i j) (g_area g i)
        (@vadv F64 (nf i j) (rl i j) (ru i j)) (@vdisp F64 (kvf c) (nf i j) (rl i j) (ru i j)) (P i j) (@bw_pl F64 F S1 msk i j) (@bw_pu F64 F S1 msk i j)
        (f64_store (f64_mul (at_ (evap F) i j) (rl i j))) (timestep c)
        (at_ (b_tagged out) i j) (at_ (b_e_track out) i j) (at_ (b_losses out) i j) (at_ (b_gains out) i j)
        (at_ (s_upper S0) i j) (at_ (s_lower S0) i j) ((1 + Rabs (r64 (kvf c))) * mag fz i j)
        (proj1 (Nsl i j Hi Hj)) (proj1 (Nsu i j Hi Hj)) (Val i j Hi Hj) (Vau i j Hi Hj) (proj1 (proj1 (Da i Hi))) (Vva i j Hi Hj) (Vvd i j Hi Hj)
        (VP i j Hi Hj) (Vpl i j Hi Hj) (Vpu i j Hi Hj) (Vq i j Hi Hj) Ddt (proj1 (Nt i j Hi Hj)) (proj1 (Net i j Hi Hj))
        (proj1 (Nlo i j Hi Hj)) (proj1 (Nga i j Hi Hj)) (proj1 (Dtu i j Hi Hj)) (proj1 (Dtl i j Hi Hj)) (proj2 (Dtu i j Hi Hj)) (proj2 (Dtl i j Hi Hj)) P1 P2
        ltac:(pose proof (proj2 (Da i Hi)); lra) Pdt ZV Z3 Z4 Ftl Ftu O1 O2 O5 O3 O6 O7) as G.
      unfold X, W, incr64, mag, v64. rewrite E1, E2, E3, E5, E6, E7. exact G.
    - intros i j Hi Hj. unfold W, mag, v64. pose proof (Rabs_pos (r64 (kvf c))).
      repeat apply Rplus_le_le_0_compat; try apply Rabs_pos. apply Rmult_le_pos; [exact Pdt|]. apply Rmult_le_pos; [lra|apply Rabs_pos].
    - apply Sum2_nonneg. intros. apply Rplus_le_le_0_compat; apply Rabs_pos.
    - apply Sum2_nonneg. intros. apply Rplus_le_le_0_compat; apply Rabs_pos.
    - exact Tl.
    - exact Tu.
    - right. f_equal. f_equal. f_equal. rewrite <- Sum2_plus. apply Sum2_ext. intros. ring. }
  refine (eq_ind _ (fun z => Rabs z <= _) Final _ _). unfold X. rewrite !Total_minus, !Total_plus. ring.
Qed.

(** ** The hypotheses are met *)
(** A 3x3 grid of unit areas, time step 1; fluxes of a third and a tenth, storages of 16, a quarter of it tracked. *)
Definition q64 (a b : Z) : F64 := f64_div (f64_ofZ a) (f64_ofZ b).
Definition k_one : F64 := Eval vm_compute in q64 1 1.
Definition k_third : F64 := Eval vm_compute in q64 1 3.
Definition k_tenth : F64 := Eval vm_compute in q64 1 10.
Definition k_four : F64 := Eval vm_compute in q64 4 1.
Definition k_sixteen : F64 := Eval vm_compute in q64 16 1.
Definition c64 (x : F64) : arr F64 := mkarr 3 3 (fun _ _ => x).
Definition ex_grid : grid F64 := mkgrid F64 3 (fun _ => k_one) k_one (fun _ => k_one).
Definition ex_cfg : stepcfg F64 := mkstepcfg F64 k_one k_third false.
Definition ex_fluxes : fluxes F64 := mkfluxes F64 (c64 k_third) (c64 k_tenth) (c64 k_tenth) (c64 k_third) (c64 k_tenth) (c64 k_third).
Definition ex_states : states F64 := mkstates F64 (c64 k_sixteen) (c64 k_sixteen).
Definition ex_fwd : fwd_out F64 := mkfwd F64 (c64 k_four) (c64 k_four) (c64 k_one) (c64 k_one) (c64 k_one) (c64 k_one) (c64 k_one).
Definition ex_bwd : bwd_out F64 := mkbwd F64 (c64 k_four) (c64 k_four) (c64 k_one) (c64 k_one) (c64 k_one) (c64 k_one).
Lemma pos64 m e : 0 < r64 (S754_finite false m e).
Proof. cbn [r64]. rewrite powerRZ_bpow. apply Rmult_lt_0_compat; [apply IZR_lt; lia|apply bpow_gt_0]. Qed.
Lemma ex_inputs : step_inputs 3 3 ex_grid ex_fluxes (c64 k_tenth) ex_states ex_states (scal k_one) (fun _ _ => k_one).
Proof. constructor; try lia; try (repeat split; reflexivity). right. exists k_one. auto. Qed.
Lemma ex_data : data64 3 3 ex_grid ex_cfg ex_fluxes (c64 k_tenth) ex_states ex_states (fun _ _ => k_one).
Proof.
  assert (K1 : r64 k_one = 1) by (cbn [r64 k_one]; rewrite powerRZ_bpow; cbn; lra).
  constructor; try (intros i j _ _; split; reflexivity); try (intros i j _ _; reflexivity); try (split; reflexivity); try reflexivity.
  - intros i _. split; [split; reflexivity|]. cbn [ex_grid g_area]. lra.
  - split; [split; reflexivity|]. cbn [ex_cfg timestep]. lra.
  - intros i j _ _. unfold v64. cbn [ex_states s_upper s_lower at_ c64]. repeat split; try apply pos64; apply Rlt_le, pos64.
Qed.
(** ... and no result overflows: in this step the two sides of the balance differ by at most 2^-16 times the
    magnitude. *)
Example C83_forward_case : exists out', forwardtrack ex_grid ex_fluxes (c64 k_tenth) ex_states ex_states (scal k_one) ex_fwd ex_cfg = OK out' /\
  fwd_numbers 3 3 ex_fwd /\ fwd_numbers 3 3 out' /\
  (forall i j, (i < 3)%nat -> (j < 3)%nat -> 0 <= v64 (f_s_upper ex_fwd) i j /\ 0 <= v64 (f_s_lower ex_fwd) i j).
Proof.
  destruct (forwardtrack_cells 3 3 ex_grid ex_cfg ex_fluxes (c64 k_tenth) ex_states ex_states (scal k_one) (fun _ _ => k_one) ex_fwd) as (out' & E & Hs & Hc);
    try apply ex_inputs; try (repeat split; reflexivity).
  exists out'. split; [exact E|]. split; [repeat split; reflexivity|]. split.
  - assert (Q : forall i j, (i < 3)%nat -> (j < 3)%nat ->
      num64 (at_ (f_s_upper out') i j) /\ num64 (at_ (f_s_lower out') i j) /\ num64 (at_ (f_p_upper out') i j) /\ num64 (at_ (f_p_lower out') i j) /\
      num64 (at_ (f_tagged out') i j) /\ num64 (at_ (f_losses out') i j) /\ num64 (at_ (f_gains out') i j)).
    { intros i j Hi Hj. destruct (Hc i j Hi Hj) as (E1 & E2 & E3 & E4 & E5 & E6 & E7). rewrite E1, E2, E3, E4, E5, E6, E7. clear -Hi Hj.
      destruct i as [|[|[|]]], j as [|[|[|]]]; try lia; repeat split; vm_compute; reflexivity. }
    repeat split; apply Q; auto.
  - intros i j _ _. split; apply Rlt_le, pos64.
Qed.
Example C83_backward_case : exists out', backtrack ex_grid ex_fluxes (c64 k_tenth) ex_states ex_states (scal k_one) ex_bwd ex_cfg = OK out' /\
  bwd_numbers 3 3 ex_bwd /\ bwd_numbers 3 3 out' /\
  (forall i j, (i < 3)%nat -> (j < 3)%nat -> num64 (f64_store (f64_add (at_ (s_upper ex_states) i j) (at_ (s_lower ex_states) i j))) /\ powerRZ 2 (-100) <= v64 (s_upper ex_states) i j + v64 (s_lower ex_states) i j) /\
  (forall i j, (i < 3)%nat -> (j < 3)%nat -> 0 <= v64 (b_s_upper ex_bwd) i j /\ 0 <= v64 (b_s_lower ex_bwd) i j).
Proof.
  destruct (backtrack_cells 3 3 ex_grid ex_cfg ex_fluxes (c64 k_tenth) ex_states ex_states (scal k_one) (fun _ _ => k_one) ex_bwd) as (out' & E & Hs & Hc);
    try apply ex_inputs; try (repeat split; reflexivity).
  exists out'. split; [exact E|]. split; [repeat split; reflexivity|]. split; [|split].
  - assert (Q : forall i j, (i < 3)%nat -> (j < 3)%nat ->
      num64 (at_ (b_s_upper out') i j) /\ num64 (at_ (b_s_lower out') i j) /\ num64 (at_ (b_e_track out') i j) /\
      num64 (at_ (b_tagged out') i j) /\ num64 (at_ (b_losses out') i j) /\ num64 (at_ (b_gains out') i j)).
    { intros i j Hi Hj. destruct (Hc i j Hi Hj) as (E1 & E2 & E3 & E5 & E6 & E7). rewrite E1, E2, E3, E5, E6, E7. clear -Hi Hj.
      destruct i as [|[|[|]]], j as [|[|[|]]]; try lia; repeat split; vm_compute; reflexivity. }
    repeat split; apply Q; auto.
  - intros i j _ _. split; [split; vm_compute; reflexivity|].
    assert (K : r64 k_sixteen = 16) by (cbn [r64 k_sixteen]; rewrite powerRZ_bpow; cbn; lra).
    unfold v64. cbn [ex_states s_upper s_lower at_ c64]. rewrite K, powerRZ_bpow. apply Rle_trans with (bpow radix2 0); [apply bpow_le; lia|cbn; lra].
  - intros i j _ _. split; apply Rlt_le, pos64.
Qed.
