(** * C81: restarting in floating-point arithmetic

    C31 (Restart.v) is about exact arithmetic, where writing a file and reading it back changes
    nothing.  The program writes its output in single precision (io.py l.215-217).  The tracked storages are in single
    precision in memory as well: the output dataset is initialised with float32 arrays and every update of a tracked storage is
    made in place or from float32 operands (Track.v).  So a restarted run begins with the very numbers
    of the first run, and goes through the same storages. *)
From Coq Require Import Reals Arith Lia Bool List ZArith.
From Coq Require Import Floats.SpecFloat.
From Verif Require Import Num Arr Core Track Progress Run RunSched RunBody RunGen Cells Sums SpecTransport HAdv StepR AdvProps StepProps StepBounds RunProps RunInv Restart Single Calendar Names Load.
Import ListNotations.
Local Open Scope nat_scope.

(** ** Specification *)
(** the tracked storages of two outputs agree in every cell of the grid *)
Definition storage_agrees_f {N : NumOps} m n (x y : fwd_out N) : Prop := forall i j, i < m -> j < n ->
  at_ (f_s_upper x) i j = at_ (f_s_upper y) i j /\ at_ (f_s_lower x) i j = at_ (f_s_lower y) i j.
Definition storage_agrees_b {N : NumOps} m n (x y : bwd_out N) : Prop := forall i j, i < m -> j < n ->
  at_ (b_s_upper x) i j = at_ (b_s_upper y) i j /\ at_ (b_s_lower x) i j = at_ (b_s_lower y) i j.
(** all fields of two outputs agree in every cell of the grid *)
Definition outputs_agree_f {N : NumOps} m n (x y : fwd_out N) : Prop :=
  forall p, In p [f_s_upper; f_s_lower; f_p_upper; f_p_lower; f_tagged; f_losses; f_gains] ->
  forall i j, i < m -> j < n -> at_ (p x) i j = at_ (p y) i j.
Definition outputs_agree_b {N : NumOps} m n (x y : bwd_out N) : Prop :=
  forall p, In p [b_s_upper; b_s_lower; b_e_track; b_tagged; b_losses; b_gains] ->
  forall i j, i < m -> j < n -> at_ (p x) i j = at_ (p y) i j.
(** two lists of output files: the same times and the same content *)
Definition same_files {Out} (same : Out -> Out -> Prop) (l l' : list (Z * Out)) : Prop :=
  Forall2 (fun a b => fst a = fst b /\ same (snd a) (snd b)) l l'.
(** rounding a second time changes nothing, and zero is a number of the file format *)
Definition rounding_settles (N : NumOps) : Prop := (forall x : N, nstore (nstore x) = nstore x) /\ nstore (@n0 N) = n0.
(** the moisture of the input is in single precision, as the preprocessing writes it *)
Definition single_states {N : NumOps} m n (w : world N) : Prop := forall t St, w_states w t = OK St -> forall i j, i < m -> j < n ->
  nstore (at_ (s_upper St) i j) = at_ (s_upper St) i j /\ nstore (at_ (s_lower St) i j) = at_ (s_lower St) i j.
(** storing the tracked storages loses nothing *)
Definition storage_exact_f {N : NumOps} m n (x : fwd_out N) : Prop := forall i j, i < m -> j < n ->
  nstore (at_ (f_s_upper x) i j) = at_ (f_s_upper x) i j /\ nstore (at_ (f_s_lower x) i j) = at_ (f_s_lower x) i j.
Definition storage_exact_b {N : NumOps} m n (x : bwd_out N) : Prop := forall i j, i < m -> j < n ->
  nstore (at_ (b_s_upper x) i j) = at_ (b_s_upper x) i j /\ nstore (at_ (b_s_lower x) i j) = at_ (b_s_lower x) i j.
(** the output after the k-th step of a run *)
Definition after_step {N : NumOps} {Out} (r : loop_state N Out) (k : nat) : option Out :=
  option_map snd (nth_error (ls_steps r) (k - 1)).

(** ** the step looks only at the cells of the tracked storage *)
Section Agree.
  Context {N : NumOps}.
  Lemma forwardtrack_agree m n (g : grid N) F fz S1 S0 mk msk x y c x' y' :
    step_inputs m n g F fz S1 S0 mk msk -> shaped_fwd x m n -> shaped_fwd y m n -> storage_agrees_f m n x y ->
    forwardtrack g F fz S1 S0 mk x c = OK x' -> forwardtrack g F fz S1 S0 mk y c = OK y' -> storage_agrees_f m n x' y' /\
    (outputs_agree_f m n x y -> outputs_agree_f m n x' y').
  Proof.
    intros I Sx Sy A Hx Hy. destruct I as [I1 I2 I3 I4 I5 I6 I7 I8].
    destruct (forwardtrack_cells m n g c F fz S1 S0 mk msk x I1 I2 I3 I4 I5 I6 I7 I8 Sx) as (qx & Qx & _ & Cx).
    destruct (forwardtrack_cells m n g c F fz S1 S0 mk msk y I1 I2 I3 I4 I5 I6 I7 I8 Sy) as (qy & Qy & _ & Cy).
    rewrite Hx in Qx. injection Qx as Qx. subst qx. rewrite Hy in Qy. injection Qy as Qy. subst qy.
    assert (RL : forall i j, i < m -> j < n -> fw_rl S0 x i j = fw_rl S0 y i j)
      by (intros i j Hi Hj; unfold fw_rl; now rewrite (proj2 (A i j Hi Hj))).
    assert (RU : forall i j, i < m -> j < n -> fw_ru S0 x i j = fw_ru S0 y i j)
      by (intros i j Hi Hj; unfold fw_ru; now rewrite (proj1 (A i j Hi Hj))).
    assert (K : forall i j, i < m -> j < n -> fw_corr m n g c F fz S1 S0 msk x i j = fw_corr m n g c F fz S1 S0 msk y i j).
    { intros i j Hi Hj. unfold fw_corr, fw_tu, fw_tl.
      rewrite !(proj1 (A i j Hi Hj)), !(proj2 (A i j Hi Hj)), (RL i j Hi Hj), (RU i j Hi Hj).
      rewrite (hadv_ext m n (periodic c) (fw_rl S0 x) (fw_rl S0 y) _ _ _ _ i j I1 I2 Hi Hj RL (fun _ _ _ _ => eq_refl) (fun _ _ _ _ => eq_refl)).
      rewrite (hadv_ext m n (periodic c) (fw_ru S0 x) (fw_ru S0 y) _ _ _ _ i j I1 I2 Hi Hj RU (fun _ _ _ _ => eq_refl) (fun _ _ _ _ => eq_refl)).
      reflexivity. }
    split.
    { intros i j Hi Hj. destruct (Cx i j Hi Hj) as (X1 & X2 & _). destruct (Cy i j Hi Hj) as (Y1 & Y2 & _).
      rewrite X1, X2, Y1, Y2, K by auto. auto. }
    intros All p Hp i j Hi Hj. destruct (Cx i j Hi Hj) as (X1 & X2 & X3 & X4 & X5 & X6 & X7). destruct (Cy i j Hi Hj) as (Y1 & Y2 & Y3 & Y4 & Y5 & Y6 & Y7).
    rewrite K, ?RL, ?RU in * by auto. pose proof (fun p Hp => All p Hp i j Hi Hj) as A'. clear All.
    destruct Hp as [<-|[<-|[<-|[<-|[<-|[<-|[<-|[]]]]]]]].
    - now rewrite X1, Y1.
    - now rewrite X2, Y2.
    - rewrite X3, Y3, (A' f_p_upper) by (cbn; auto). reflexivity.
    - rewrite X4, Y4, (A' f_p_lower) by (cbn; auto). reflexivity.
    - rewrite X5, Y5, (A' f_tagged) by (cbn; auto 10). reflexivity.
    - rewrite X6, Y6, (A' f_losses) by (cbn; auto 10). reflexivity.
    - rewrite X7, Y7, (A' f_gains) by (cbn; auto 10). reflexivity.
  Qed.
  Lemma backtrack_agree m n (g : grid N) F fz S1 S0 mk msk x y c x' y' :
    step_inputs m n g F fz S1 S0 mk msk -> shaped_bwd x m n -> shaped_bwd y m n -> storage_agrees_b m n x y ->
    backtrack g F fz S1 S0 mk x c = OK x' -> backtrack g F fz S1 S0 mk y c = OK y' -> storage_agrees_b m n x' y' /\
    (outputs_agree_b m n x y -> outputs_agree_b m n x' y').
  Proof.
    intros I Sx Sy A Hx Hy. destruct I as [I1 I2 I3 I4 I5 I6 I7 I8].
    destruct (backtrack_cells m n g c F fz S1 S0 mk msk x I1 I2 I3 I4 I5 I6 I7 I8 Sx) as (qx & Qx & _ & Cx).
    destruct (backtrack_cells m n g c F fz S1 S0 mk msk y I1 I2 I3 I4 I5 I6 I7 I8 Sy) as (qy & Qy & _ & Cy).
    rewrite Hx in Qx. injection Qx as Qx. subst qx. rewrite Hy in Qy. injection Qy as Qy. subst qy.
    assert (RL : forall i j, i < m -> j < n -> bw_rl S1 x i j = bw_rl S1 y i j)
      by (intros i j Hi Hj; unfold bw_rl; now rewrite (proj2 (A i j Hi Hj))).
    assert (RU : forall i j, i < m -> j < n -> bw_ru S1 x i j = bw_ru S1 y i j)
      by (intros i j Hi Hj; unfold bw_ru; now rewrite (proj1 (A i j Hi Hj))).
    assert (K : forall i j, i < m -> j < n -> bw_corr m n g c F fz S1 S0 msk x i j = bw_corr m n g c F fz S1 S0 msk y i j).
    { intros i j Hi Hj. unfold bw_corr, bw_tu, bw_tl.
      rewrite !(proj1 (A i j Hi Hj)), !(proj2 (A i j Hi Hj)), (RL i j Hi Hj), (RU i j Hi Hj).
      rewrite (hadv_ext m n (periodic c) (bw_rl S1 x) (bw_rl S1 y) _ _ _ _ i j I1 I2 Hi Hj RL (fun _ _ _ _ => eq_refl) (fun _ _ _ _ => eq_refl)).
      rewrite (hadv_ext m n (periodic c) (bw_ru S1 x) (bw_ru S1 y) _ _ _ _ i j I1 I2 Hi Hj RU (fun _ _ _ _ => eq_refl) (fun _ _ _ _ => eq_refl)).
      reflexivity. }
    split.
    { intros i j Hi Hj. destruct (Cx i j Hi Hj) as (X1 & X2 & _). destruct (Cy i j Hi Hj) as (Y1 & Y2 & _).
      rewrite X1, X2, Y1, Y2, K by auto. auto. }
    intros All p Hp i j Hi Hj. destruct (Cx i j Hi Hj) as (X1 & X2 & X3 & X4 & X5 & X6). destruct (Cy i j Hi Hj) as (Y1 & Y2 & Y3 & Y4 & Y5 & Y6).
    rewrite K, ?RL, ?RU in * by auto. pose proof (fun p Hp => All p Hp i j Hi Hj) as A'. clear All.
    destruct Hp as [<-|[<-|[<-|[<-|[<-|[<-|[]]]]]]].
    - now rewrite X1, Y1.
    - now rewrite X2, Y2.
    - rewrite X3, Y3, (A' b_e_track) by (cbn; auto). reflexivity.
    - rewrite X4, Y4, (A' b_tagged) by (cbn; auto 10). reflexivity.
    - rewrite X5, Y5, (A' b_losses) by (cbn; auto 10). reflexivity.
    - rewrite X6, Y6, (A' b_gains) by (cbn; auto 10). reflexivity.
  Qed.
End Agree.

(** ** the storages in memory are numbers of the file format *)
Section Exact.
  Context {N : NumOps}.
  Lemma lerp_single m n (w : N) (a b : arr N) : rounding_settles N -> nr a = m -> nc a = n -> nr b = m -> nc b = n ->
    exists r, lerp w a b = OK r /\ forall i j, i < m -> j < n -> nstore (at_ r i j) = at_ r i j.
  Proof.
    intros [Rs _] **. destruct (lerp_cells m n w a b) as (r & E & _ & _ & V); auto. exists r. split; [exact E|].
    intros i j Hi Hj. rewrite V by auto. apply Rs.
  Qed.
  Lemma min_exact (x y : N) : nstore x = x -> nstore y = y -> nstore (nmin x y) = nmin x y.
  Proof. unfold nmin. destruct (_ || _); auto. Qed.
  Lemma max_exact (x y : N) : nstore x = x -> nstore y = y -> nstore (nmax x y) = nmax x y.
  Proof. unfold nmax. destruct (_ || _); auto. Qed.
  Lemma corr_exact b (u l su sl : N) : rounding_settles N -> nstore su = su -> nstore sl = sl ->
    nstore (c_u (corr_cell b u l su sl)) = c_u (corr_cell b u l su sl) /\
    nstore (c_l (corr_cell b u l su sl)) = c_l (corr_cell b u l su sl).
  Proof.
    intros [Rs Z] Hu Hl. unfold corr_cell. cbn [c_u c_l].
    split; (apply min_exact; [|assumption]; apply max_exact; [|assumption]; apply Rs).
  Qed.
  Lemma fwd_body_exact m n (c : runcfg N) w rg t0 th t1 x tx x' tx' wx :
    world_shape m n w rg -> rounding_settles N -> single_states m n w -> shaped_fwd x m n ->
    fwd_body c w t0 th t1 x tx = OK (x', tx', wx) -> storage_exact_f m n x'.
  Proof.
    intros W Rs Sg Sx Hx. unfold fwd_body in Hx.
    destruct (w_states w t0) as [S0|] eqn:E0; [|discriminate]. cbn [bind] in Hx.
    destruct (w_fluxes w th) as [F|] eqn:EF; [|discriminate]. cbn [bind] in Hx.
    destruct (w_states w t1) as [S1|] eqn:E1; [|discriminate]. cbn [bind] in Hx.
    pose proof (ws_S _ _ _ _ W _ _ E0) as H0. pose proof (ws_S _ _ _ _ W _ _ E1) as H1. pose proof (ws_F _ _ _ _ W _ _ EF) as HF.
    destruct (step_data m n w rg W c F S0 S1 S0 t0 HF H0 H1 H0) as (F1 & G & corr & fz & A & B & C & D & E & I).
    rewrite A in Hx. cbn [bind] in Hx. rewrite B in Hx. cbn [bind] in Hx.
    destruct (track_levels tx corr) as [t1x w1x]. rewrite C in Hx. cbn [bind] in Hx.
    destruct (forwardtrack (w_grid w) G fz S1 S0 (mask_at c w t0) x (stepcfg_of c)) as [ox|] eqn:Ex; [|discriminate].
    cbn [bind] in Hx. injection Hx as <- _ _. destruct I as [I1 I2 I3 I4 I5 I6 I7 I8].
    edestruct (@forwardtrack_cells N m n (w_grid w) (stepcfg_of c)) as (qx & Qx & _ & Cx); [exact I1|exact I2|exact I3|exact I4|exact I5|exact I6|exact I7|exact I8|exact Sx|].
    rewrite Ex in Qx. injection Qx as <-. intros i j Hi Hj. destruct (Cx i j Hi Hj) as (-> & -> & _).
    destruct (Sg _ _ E1 i j Hi Hj). unfold fw_corr. now apply corr_exact.
  Qed.
  Lemma bwd_body_exact m n (c : runcfg N) w rg t0 th t1 x tx x' tx' wx :
    world_shape m n w rg -> rounding_settles N -> single_states m n w -> shaped_bwd x m n ->
    bwd_body c w t0 th t1 x tx = OK (x', tx', wx) -> storage_exact_b m n x'.
  Proof.
    intros W Rs Sg Sx Hx. unfold bwd_body in Hx.
    destruct (w_states w t0) as [S0|] eqn:E0; [|discriminate]. cbn [bind] in Hx.
    destruct (w_fluxes w th) as [F|] eqn:EF; [|discriminate]. cbn [bind] in Hx.
    destruct (w_states w t1) as [S1|] eqn:E1; [|discriminate]. cbn [bind] in Hx.
    pose proof (ws_S _ _ _ _ W _ _ E0) as H0. pose proof (ws_S _ _ _ _ W _ _ E1) as H1. pose proof (ws_F _ _ _ _ W _ _ EF) as HF.
    destruct (step_data m n w rg W c F S0 S1 S1 t1 HF H0 H1 H1) as (F1 & G & corr & fz & A & B & C & D & E & I).
    rewrite A in Hx. cbn [bind] in Hx. rewrite B in Hx. cbn [bind] in Hx.
    destruct (track_levels tx corr) as [t1x w1x]. rewrite C in Hx. cbn [bind] in Hx.
    destruct (backtrack (w_grid w) G fz S1 S0 (mask_at c w t1) x (stepcfg_of c)) as [ox|] eqn:Ex; [|discriminate].
    cbn [bind] in Hx. injection Hx as <- _ _. destruct I as [I1 I2 I3 I4 I5 I6 I7 I8].
    edestruct (@backtrack_cells N m n (w_grid w) (stepcfg_of c)) as (qx & Qx & _ & Cx); [exact I1|exact I2|exact I3|exact I4|exact I5|exact I6|exact I7|exact I8|exact Sx|].
    rewrite Ex in Qx. injection Qx as <-. intros i j Hi Hj. destruct (Cx i j Hi Hj) as (-> & -> & _).
    destruct (Sg _ _ E0 i j Hi Hj). unfold bw_corr. now apply corr_exact.
  Qed.
End Exact.

(** ** C81 *)
Section Restart.
  Context {N : NumOps}.
  Lemma Forall2_map_seq {A} (R : A -> A -> Prop) (f g : nat -> A) (P : nat -> bool) l :
    (forall k, In k l -> P k = true -> R (f k) (g k)) -> Forall2 R (map f (filter P l)) (map g (filter P l)).
  Proof.
    intros H. induction l as [|x l IH]; cbn; [constructor|]. destruct (P x) eqn:E; cbn; [constructor|]; try apply IH; intros; apply H; cbn; auto.
  Qed.
  Lemma Forall2_shift {A} (R : A -> A -> Prop) (f g : nat -> A) (P Q : nat -> bool) K n : forall d,
    (forall k, d <= k < d + n -> P (K + k) = Q k /\ R (f (K + k)) (g k)) ->
    Forall2 R (map f (filter P (seq (d + K) n))) (map g (filter Q (seq d n))).
  Proof.
    induction n as [|n IH]; intros d H; cbn [seq filter map]; [constructor|].
    destruct (H d ltac:(lia)) as [E R0]. rewrite (Nat.add_comm d K), E. 
    specialize (IH (S d)). rewrite (Nat.add_comm (S d) K), Nat.add_succ_r in IH.
    destruct (Q d); cbn [map]; [constructor; [exact R0|]|]; apply IH; intros; apply H; lia.
  Qed.
  Lemma fwd_body_agree m n (c : runcfg N) w rg t0 th t1 x y tx ty x' y' tx' ty' wx wy :
    world_shape m n w rg -> shaped_fwd x m n -> shaped_fwd y m n -> storage_agrees_f m n x y ->
    fwd_body c w t0 th t1 x tx = OK (x', tx', wx) -> fwd_body c w t0 th t1 y ty = OK (y', ty', wy) -> storage_agrees_f m n x' y' /\
    (outputs_agree_f m n x y -> outputs_agree_f m n x' y').
  Proof.
    intros W Sx Sy Hs Hx Hy. unfold fwd_body in Hx, Hy.
    destruct (w_states w t0) as [S0|] eqn:E0; [|discriminate]. cbn [bind] in Hx, Hy.
    destruct (w_fluxes w th) as [F|] eqn:EF; [|discriminate]. cbn [bind] in Hx, Hy.
    destruct (w_states w t1) as [S1|] eqn:E1; [|discriminate]. cbn [bind] in Hx, Hy.
    pose proof (ws_S _ _ _ _ W _ _ E0) as H0. pose proof (ws_S _ _ _ _ W _ _ E1) as H1. pose proof (ws_F _ _ _ _ W _ _ EF) as HF.
    destruct (step_data m n w rg W c F S0 S1 S0 t0 HF H0 H1 H0) as (F1 & G & corr & fz & A & B & C & D & E & I).
    rewrite A in Hx, Hy. cbn [bind] in Hx, Hy. rewrite B in Hx, Hy. cbn [bind] in Hx, Hy.
    destruct (track_levels tx corr) as [t1x w1x]. destruct (track_levels ty corr) as [t1y w1y].
    rewrite C in Hx, Hy. cbn [bind] in Hx, Hy.
    destruct (forwardtrack (w_grid w) G fz S1 S0 (mask_at c w t0) x (stepcfg_of c)) as [ox|] eqn:Ex; [|discriminate].
    destruct (forwardtrack (w_grid w) G fz S1 S0 (mask_at c w t0) y (stepcfg_of c)) as [oy|] eqn:Ey; [|discriminate].
    cbn [bind] in Hx, Hy. injection Hx as <- _ _. injection Hy as <- _ _.
    exact (forwardtrack_agree m n _ _ _ _ _ _ _ x y _ _ _ I Sx Sy Hs Ex Ey).
  Qed.
  Lemma bwd_body_agree m n (c : runcfg N) w rg t0 th t1 x y tx ty x' y' tx' ty' wx wy :
    world_shape m n w rg -> shaped_bwd x m n -> shaped_bwd y m n -> storage_agrees_b m n x y ->
    bwd_body c w t0 th t1 x tx = OK (x', tx', wx) -> bwd_body c w t0 th t1 y ty = OK (y', ty', wy) -> storage_agrees_b m n x' y' /\
    (outputs_agree_b m n x y -> outputs_agree_b m n x' y').
  Proof.
    intros W Sx Sy Hs Hx Hy. unfold bwd_body in Hx, Hy.
    destruct (w_states w t0) as [S0|] eqn:E0; [|discriminate]. cbn [bind] in Hx, Hy.
    destruct (w_fluxes w th) as [F|] eqn:EF; [|discriminate]. cbn [bind] in Hx, Hy.
    destruct (w_states w t1) as [S1|] eqn:E1; [|discriminate]. cbn [bind] in Hx, Hy.
    pose proof (ws_S _ _ _ _ W _ _ E0) as H0. pose proof (ws_S _ _ _ _ W _ _ E1) as H1. pose proof (ws_F _ _ _ _ W _ _ EF) as HF.
    destruct (step_data m n w rg W c F S0 S1 S1 t1 HF H0 H1 H1) as (F1 & G & corr & fz & A & B & C & D & E & I).
    rewrite A in Hx, Hy. cbn [bind] in Hx, Hy. rewrite B in Hx, Hy. cbn [bind] in Hx, Hy.
    destruct (track_levels tx corr) as [t1x w1x]. destruct (track_levels ty corr) as [t1y w1y].
    rewrite C in Hx, Hy. cbn [bind] in Hx, Hy.
    destruct (backtrack (w_grid w) G fz S1 S0 (mask_at c w t1) x (stepcfg_of c)) as [ox|] eqn:Ex; [|discriminate].
    destruct (backtrack (w_grid w) G fz S1 S0 (mask_at c w t1) y (stepcfg_of c)) as [oy|] eqn:Ey; [|discriminate].
    cbn [bind] in Hx, Hy. injection Hx as <- _ _. injection Hy as <- _ _.
    exact (backtrack_agree m n _ _ _ _ _ _ _ x y _ _ _ I Sx Sy Hs Ex Ey).
  Qed.
  Lemma fwd_flush_agrees m n (x y : fwd_out N) : storage_agrees_f m n x y -> storage_agrees_f m n (fwd_flush x) (fwd_flush y).
  Proof. intros H. exact H. Qed.
  Lemma fwd_flush_keeps m n (x : fwd_out N) : storage_agrees_f m n (fwd_flush x) x.
  Proof. intros i j _ _. split; reflexivity. Qed.
  Lemma nth_seq_map {A} (f : nat -> A) n k d : k < n -> nth_error (map f (seq d n)) k = Some (f (d + k)).
  Proof.
    intros H. rewrite nth_error_map, (nth_error_nth' (seq d n) O) by (rewrite seq_length; auto). cbn. now rewrite seq_nth.
  Qed.

  (** [T] is the time of the K1-th step of the run [r]; the first run stops there, the second one continues
      from the file written at T.  For every arithmetic with a rounding that settles: *)
  Theorem C81_forward_restart_any_arithmetic m n (c : runcfg N) w rg prev r K1 T :
    (0 < rc_timestep c)%Z -> world_shape m n w rg -> prev_shape_f c prev m n -> completes (fwd_run c w prev) r ->
    rounding_settles N -> single_states m n w ->
    0 < K1 -> T = (rc_start c + Z.of_nat K1 * (rc_timestep c * 1000000))%Z -> (T <= rc_end c)%Z ->
    exists r1 f r2 at_T,
      (* the first run completes and its last file is the one of time T *)
      completes (fwd_run (until c T) w prev) r1 /\ last (ls_files r1) (0%Z, f) = (T, f) /\
      (* the second run, with only that file present, completes *)
      completes (fwd_run (from c T) w (only_file T f)) r2 /\
      (* the first run makes the same first K1 steps as the uninterrupted one *)
      List.length (ls_steps r1) = K1 /\ (forall k, 1 <= k <= K1 -> after_step r k = after_step r1 k) /\
      (* the file holds the storages of time T *)
      after_step r K1 = Some at_T /\
      (forall i j, i < m -> j < n -> at_ (f_s_upper f) i j = at_ (f_s_upper at_T) i j /\
                                     at_ (f_s_lower f) i j = at_ (f_s_lower at_T) i j) /\
      (* and all the other steps lead to the same storages *)
      (forall k x, 1 <= k -> after_step r (K1 + k) = Some x ->
         exists y, after_step r2 k = Some y /\ storage_agrees_f m n x y) /\
      (* if T is an output time and the accumulated fields of time T can be reset, the files of the two runs are those of
         the uninterrupted one *)
      ((T mod rc_output_frequency c = 0)%Z ->
       (forall p, In p [f_p_upper; f_p_lower; f_tagged; f_losses; f_gains] -> forall i j, i < m -> j < n -> nmul (at_ (p at_T) i j) n0 = n0) ->
       same_files (outputs_agree_f m n) (ls_files r) (ls_files r1 ++ ls_files r2)).
  Proof.
    intros Hdt W Hp Hr Rs Sg HK1 ET HT.
    destruct (fwd_run_traj c w prev r Hdt Hr) as (init & Ei & o & a & tr & tr' & ws & TR).
    destruct (fwd_init_inv m n w rg W c prev init Ei Hp) as (Hi & _).
    change (rc_start c + Z.of_nat K1 * (rc_timestep c * 1000000))%Z with (tfwd c K1) in ET.
    assert (Hd : (0 < rc_dt c)%Z) by (unfold rc_dt, usec; lia).
    pose proof (until_steps c K1 T Hdt ET) as N1. pose proof (from_steps c K1 T Hdt ET HT) as N2.
    set (c1 := until c T) in *. set (c2 := from c T) in *.
    assert (Ei1 : fwd_init c1 w prev = OK init) by exact Ei.
    assert (Tm2 : forall k, tfwd c2 k = tfwd c (K1 + k)).
    { intros k. unfold tfwd, c2. cbn [from rc_start rc_end]. change (rc_dt (from c T)) with (rc_dt c). rewrite ET. unfold tfwd. lia. }
    assert (Hm2 : forall k, hf c2 k = hf c (K1 + k)).
    { intros k. unfold hf. rewrite Tm2. reflexivity. }
    assert (C1 : exists r1, completes (fwd_run c1 w prev) r1).
    { apply (fwd_run_completes c1 w prev init (fun x => shaped_fwd x m n) Hdt Ei1 Hi (fwd_flush_shape m n)).
      intros k x tx Hk Hx. rewrite N1 in Hk.
      destruct (fwd_step_at m n c w rg W init r o a tr tr' ws TR k ltac:(lia)) as (S0 & S1 & F & G & fz & D & E).
      exact (fwd_body_ok m n w rg W c _ _ _ x tx S0 F S1 (fd_S0 _ _ _ _ _ _ _ _ _ _ _ _ _ D) (fd_F _ _ _ _ _ _ _ _ _ _ _ _ _ D) (fd_S1 _ _ _ _ _ _ _ _ _ _ _ _ _ D) Hx). }
    destruct C1 as [r1 C1]. destruct (fwd_run_traj c1 w prev r1 Hdt C1) as (init1 & Ei1' & o1 & a1 & tr1 & tr1' & ws1 & TR1).
    rewrite Ei1 in Ei1'. injection Ei1' as <-.
    pose proof (prefix c c1 _ _ _ _ _ _ _ _ _ _ _ _ _ _ _ _ _ _ _ _ _ _ _ _ _ _ _ _ TR TR1 ltac:(lia)
      (fun k _ => eq_refl)) as Pre.
    assert (Pre' : forall k, k < K1 -> a (S k) = a1 (S k)).
    { intros k Hk. destruct (Pre) with (k := k) as (_ & _ & P3); auto; [|lia].
      intros q Hq. unfold written. change (tfwd c1 q) with (tfwd c q). change (rc_output_frequency c1) with (rc_output_frequency c).
      destruct (Nat.eqb_spec q (nsteps c)), (Nat.eqb_spec q (nsteps c1)); try reflexivity; lia. }
    clear Pre.
    assert (EaK : a K1 = a1 K1).
    { destruct K1 as [|k]; [lia|]. apply (Pre' k). lia. }
    assert (ShA : shaped_fwd (a K1) m n).
    { destruct K1 as [|k]; [lia|].
      eapply fwd_body_shape; [exact W| |exact (tj_body _ _ _ _ _ _ _ _ _ _ _ _ _ _ _ _ _ _ TR k ltac:(lia))].
      apply (fwd_shape_at m n c w rg W init r o a tr tr' ws TR Hi k). lia. }
    assert (Ex : storage_exact_f m n (a K1)).
    { destruct K1 as [|k]; [lia|].
      eapply fwd_body_exact; [exact W|exact Rs|exact Sg| |exact (tj_body _ _ _ _ _ _ _ _ _ _ _ _ _ _ _ _ _ _ TR k ltac:(lia))].
      apply (fwd_shape_at m n c w rg W init r o a tr tr' ws TR Hi k). lia. }
    set (f := fwd_stored (a1 K1)).
    assert (L1 : last (ls_files r1) (0%Z, f) = (T, f)).
    { rewrite (last_file _ _ _ _ _ _ _ _ _ _ _ _ _ _ _ _ _ _ TR1) by lia. rewrite N1. change (tfwd c1 K1) with (tfwd c K1). now rewrite <- ET. }
    assert (ST : exists S, w_states w T = OK S /\ shapedS S m n).
    { destruct K1 as [|k]; [lia|]. destruct (fwd_step_at m n c w rg W init r o a tr tr' ws TR k ltac:(lia)) as (S0 & S1 & F & G & fz & D & E).
      exists S1. rewrite ET. split; [exact (fd_S1 _ _ _ _ _ _ _ _ _ _ _ _ _ D)|]. eapply ws_S; [exact W|exact (fd_S1 _ _ _ _ _ _ _ _ _ _ _ _ _ D)]. }
    destruct ST as (ST & EST & HST).
    assert (Ei2 : exists init2, fwd_init c2 w (only_file T f) = OK init2 /\ shaped_fwd init2 m n /\ fwd_same f init2 /\
       (forall p, In p [f_p_upper; f_p_lower; f_tagged; f_losses; f_gains] -> forall i j, at_ (p init2) i j = n0)).
    { unfold fwd_init, c2. cbn [from rc_start rc_end rc_restart]. rewrite EST. cbn [bind]. unfold only_file. rewrite Z.eqb_refl. cbn [bind].
      eexists. split; [reflexivity|]. destruct HST as [Q1 Q2].
      rewrite EaK in ShA. unfold shaped_fwd in ShA. unfold shaped in *.
      split; [unfold shaped_fwd, shaped, f; cbn; tauto|]. split; [split; reflexivity|]. intros p Hpp i j. cbn in Hpp. repeat (destruct Hpp as [<-|Hpp]; [reflexivity|]). destruct Hpp. }
    destruct Ei2 as (init2 & Ei2 & Hi2 & Hz2). pose proof (proj1 Hz2) as Hs2.
    assert (C2 : exists r2, completes (fwd_run c2 w (only_file T f)) r2).
    { apply (fwd_run_completes c2 w (only_file T f) init2 (fun x => shaped_fwd x m n) Hdt Ei2 Hi2 (fwd_flush_shape m n)).
      intros k x tx Hk Hx.
      destruct (fwd_step_at m n c w rg W init r o a tr tr' ws TR (K1 + k) ltac:(lia)) as (S0 & S1 & F & G & fz & D & E).
      rewrite !Tm2, Hm2. rewrite <- Nat.add_succ_r in D.
      exact (fwd_body_ok m n w rg W c _ _ _ x tx S0 F S1 (fd_S0 _ _ _ _ _ _ _ _ _ _ _ _ _ D) (fd_F _ _ _ _ _ _ _ _ _ _ _ _ _ D) (fd_S1 _ _ _ _ _ _ _ _ _ _ _ _ _ D) Hx). }
    destruct C2 as [r2 C2]. destruct (fwd_run_traj c2 w _ r2 Hdt C2) as (init2' & Ei2' & o2 & a2 & tr2 & tr2' & ws2 & TR2).
    rewrite Ei2 in Ei2'. injection Ei2' as <-.
    assert (St : forall (c' : runcfg N) w' i' r' o' a' t1' t2' ws' (Tx : fwd_traj c' w' i' r' o' a' t1' t2' ws') k, 1 <= k -> after_step r' k = if Nat.leb k (nsteps c') then Some (a' k) else None).
    { intros c' w' i' r' o' a' t1' t2' ws' Tx k Hk. unfold after_step. rewrite (tj_steps _ _ _ _ _ _ _ _ _ _ _ _ _ _ _ _ _ _ Tx).
      destruct (Nat.leb_spec k (nsteps c')).
      - rewrite nth_seq_map by lia. cbn [option_map snd plus]. do 2 f_equal. lia.
      - replace (nth_error _ (k - 1)) with (@None (Z * fwd_out N * fwd_out N)); [reflexivity|]. symmetry. apply nth_error_None. rewrite map_length, seq_length. lia. }
    assert (Wr : forall k, (0 < k)%nat -> written c (tfwd c) (K1 + k) = written c2 (tfwd c2) k).
    { intros q Hq. unfold written. rewrite Tm2. change (rc_output_frequency c2) with (rc_output_frequency c). f_equal.
      rewrite N2. destruct (Nat.eqb_spec (K1 + q) (K1 + nsteps c2)), (Nat.eqb_spec q (nsteps c2)); auto; lia. }
    assert (OK1 : o K1 = if written c (tfwd c) K1 then fwd_flush (a K1) else a K1).
    { destruct K1 as [|q]; [lia|]. exact (tj_flush _ _ _ _ _ _ _ _ _ _ _ _ _ _ _ _ _ _ TR q ltac:(lia)). }
    assert (O20 : o2 0%nat = init2) by exact (tj_init _ _ _ _ _ _ _ _ _ _ _ _ _ _ _ _ _ _ TR2).
    exists r1, f, r2, (a K1). split; [exact C1|]. split; [exact L1|]. split; [exact C2|].
    split; [rewrite (tj_steps _ _ _ _ _ _ _ _ _ _ _ _ _ _ _ _ _ _ TR1), map_length, seq_length; exact N1|].
    split.
    { intros k Hk. rewrite (St _ _ _ _ _ _ _ _ _ TR k), (St _ _ _ _ _ _ _ _ _ TR1 k), N1 by lia.
      destruct (Nat.leb_spec k K1), (Nat.leb_spec k (nsteps c)); try lia. destruct k as [|k]; [lia|]. now rewrite Pre' by lia. }
    split. { rewrite (St _ _ _ _ _ _ _ _ _ TR K1) by lia. destruct (Nat.leb_spec K1 (nsteps c)); [reflexivity|lia]. }
    split. { intros i j Hi' Hj'. destruct (Ex i j Hi' Hj') as [X1 X2]. unfold f. rewrite <- EaK. split; [exact X1|exact X2]. }
    split.
    { intros k x Hk Hx. rewrite (St _ _ _ _ _ _ _ _ _ TR (K1 + k)) in Hx by lia.
    destruct (Nat.leb_spec (K1 + k) (nsteps c)); [|discriminate]. injection Hx as <-.
    exists (a2 k). rewrite (St _ _ _ _ _ _ _ _ _ TR2 k) by lia. destruct (Nat.leb_spec k (nsteps c2)); [|lia]. split; [reflexivity|].
    set (Rl := fun x y : fwd_out N => storage_agrees_f m n x y /\ shaped_fwd x m n /\ shaped_fwd y m n).
    assert (BodySim : forall k x y t1 t2 x' y' t1' t2' w1 w2, (k < nsteps c2)%nat -> Rl x y ->
          fwd_body c w (tfwd c (K1 + k)) (hf c (K1 + k)) (tfwd c (S (K1 + k))) x t1 = OK (x', t1', w1) ->
          fwd_body c2 w (tfwd c2 k) (hf c2 k) (tfwd c2 (S k)) y t2 = OK (y', t2', w2) -> Rl x' y').
    { intros q x y t1 t2 x' y' t1' t2' w1 w2 Hq (R1 & R2 & R3) B1 B2. rewrite !Tm2, Hm2 in B2.
      rewrite Nat.add_succ_r in B2. change (fwd_body c2 w) with (fwd_body c w) in B2.
      split; [exact (proj1 (fwd_body_agree m n c w rg _ _ _ x y t1 t2 x' y' t1' t2' w1 w2 W R2 R3 R1 B1 B2))|].
      split; [exact (fwd_body_shape m n c w rg _ _ _ x t1 x' t1' w1 W R2 B1)|exact (fwd_body_shape m n c w rg _ _ _ y t2 y' t2' w2 W R3 B2)]. }
    assert (Sim0 : Rl (o K1) (o2 0%nat)).
    { rewrite OK1, O20. split; [|split; [|exact Hi2]].
      - assert (Q : storage_agrees_f m n (a K1) init2).
        { intros i j Hi' Hj'. destruct Hs2 as [<- <-]. destruct (Ex i j Hi' Hj') as [X1 X2]. unfold f. cbn [fwd_stored f_s_upper f_s_lower stored at_].
          rewrite <- EaK. rewrite X1, X2. auto. }
        destruct (written c (tfwd c) K1); exact Q.
      - destruct (written c (tfwd c) K1); [now apply fwd_flush_shape|exact ShA]. }
    assert (FlSim : forall x y, Rl x y -> Rl (fwd_flush x) (fwd_flush y)).
    { intros x y (R1 & R2 & R3). split; [exact R1|]. split; now apply fwd_flush_shape. }
    pose proof (shift_a c c2 _ _ _ _ _ _ _ _ _ _ _ _ _ _ _ _ _ _ _ _ _ _ _ _ _ _ _ _ _ _ TR TR2 K1 Rl N2 Wr BodySim FlSim Sim0 (k - 1) ltac:(lia)) as Q.
    replace (S (K1 + (k - 1))) with (K1 + k) in Q by lia. replace (S (k - 1)) with k in Q by lia. exact (proj1 Q). }
    intros Hout Hrs. assert (WK : written c (tfwd c) K1 = true) by (unfold written; rewrite <- ET, Hout; reflexivity).
    set (Rl := fun x y : fwd_out N => outputs_agree_f m n x y /\ shaped_fwd x m n /\ shaped_fwd y m n).
    assert (BodySim : forall k x y t1 t2 x' y' t1' t2' w1 w2, (k < nsteps c2)%nat -> Rl x y ->
          fwd_body c w (tfwd c (K1 + k)) (hf c (K1 + k)) (tfwd c (S (K1 + k))) x t1 = OK (x', t1', w1) ->
          fwd_body c2 w (tfwd c2 k) (hf c2 k) (tfwd c2 (S k)) y t2 = OK (y', t2', w2) -> Rl x' y').
    { intros q x y t1 t2 x' y' t1' t2' w1 w2 Hq (R1 & R2 & R3) B1 B2. rewrite !Tm2, Hm2 in B2.
      rewrite Nat.add_succ_r in B2. change (fwd_body c2 w) with (fwd_body c w) in B2.
      assert (R0 : storage_agrees_f m n x y) by (intros i j Hi' Hj'; split; apply R1; cbn; auto).
      split; [exact (proj2 (fwd_body_agree m n c w rg _ _ _ x y t1 t2 x' y' t1' t2' w1 w2 W R2 R3 R0 B1 B2) R1)|].
      split; [exact (fwd_body_shape m n c w rg _ _ _ x t1 x' t1' w1 W R2 B1)|exact (fwd_body_shape m n c w rg _ _ _ y t2 y' t2' w2 W R3 B2)]. }
    assert (Sim0 : Rl (o K1) (o2 0%nat)).
    { rewrite OK1, O20, WK. split; [|split; [now apply fwd_flush_shape|exact Hi2]].
      intros p Hpp i j Hi' Hj'. destruct (Ex i j Hi' Hj') as [X1 X2]. destruct Hz2 as [[S1 S2] Z2].
      destruct Hpp as [<-|[<-|Hpp]].
      - rewrite <- S1. unfold f. rewrite <- EaK. cbn. now rewrite X1.
      - rewrite <- S2. unfold f. rewrite <- EaK. cbn. now rewrite X2.
      - rewrite (Z2 p Hpp), <- (Hrs p Hpp i j Hi' Hj'). cbn in Hpp. repeat (destruct Hpp as [<-|Hpp]; [reflexivity|]). destruct Hpp. }
    assert (FlSim : forall x y, Rl x y -> Rl (fwd_flush x) (fwd_flush y)).
    { intros x y (R1 & R2 & R3). split; [|split; now apply fwd_flush_shape]. intros p Hpp i j Hi' Hj'.
      destruct Hpp as [<-|[<-|Hpp]]; [exact (R1 f_s_upper ltac:(cbn; auto) i j Hi' Hj')|exact (R1 f_s_lower ltac:(cbn; auto) i j Hi' Hj')|].
      pose proof (R1 p (or_intror (or_intror Hpp)) i j Hi' Hj') as E. cbn in Hpp. repeat (destruct Hpp as [<-|Hpp]; [cbn; now rewrite E|]). destruct Hpp. }
    pose proof (shift_a c c2 _ _ _ _ _ _ _ _ _ _ _ _ _ _ _ _ _ _ _ _ _ _ _ _ _ _ _ _ _ _ TR TR2 K1 Rl N2 Wr BodySim FlSim Sim0) as ShA2.
    rewrite (tj_files _ _ _ _ _ _ _ _ _ _ _ _ _ _ _ _ _ _ TR), (tj_files _ _ _ _ _ _ _ _ _ _ _ _ _ _ _ _ _ _ TR1), (tj_files _ _ _ _ _ _ _ _ _ _ _ _ _ _ _ _ _ _ TR2).
    rewrite N2, N1, seq_app, filter_app, map_app. apply Forall2_app.
    - assert (Ff : filter (written c (tfwd c)) (seq 1 K1) = filter (written c1 (tfwd c1)) (seq 1 K1)).
      { apply filter_ext_in. intros k Hk. apply in_seq in Hk. unfold written. change (tfwd c1 k) with (tfwd c k).
        change (rc_output_frequency c1) with (rc_output_frequency c). rewrite N1.
        destruct (Nat.eqb_spec k K1); [|destruct (Nat.eqb_spec k (nsteps c)); [lia|reflexivity]].
        subst k. rewrite <- ET, Hout. reflexivity. }
      rewrite Ff. apply Forall2_map_seq. intros k Hk _. apply in_seq in Hk.
      cbn [fst snd]. split; [reflexivity|]. destruct k as [|k]; [lia|]. rewrite (Pre' k) by lia. intros p _ i j _ _. reflexivity.
    - apply (Forall2_shift _ _ _ _ _ K1 (nsteps c2) 1). intros k Hk. split; [apply Wr; lia|]. cbn [fst snd]. split; [now rewrite Tm2|].
      destruct k as [|k]; [lia|]. rewrite Nat.add_succ_r. destruct (ShA2 k ltac:(lia)) as (R1 & _).
      intros p Hpp i j Hi' Hj'. pose proof (R1 p Hpp i j Hi' Hj') as E. cbn in Hpp. repeat (destruct Hpp as [<-|Hpp]; [cbn in *; now rewrite E|]). destruct Hpp.
  Qed.
  (** [T] is the time of the K1-th step of the run [r]; the first run stops there, the second one continues
      from the file written at T.  For every arithmetic with a rounding that settles: *)
  Theorem C81_backward_restart_any_arithmetic m n (c : runcfg N) w rg prev r K1 T :
    (0 < rc_timestep c)%Z -> world_shape m n w rg -> prev_shape_b c prev m n -> completes (bwd_run c w prev) r ->
    rounding_settles N -> single_states m n w ->
    0 < K1 -> T = (rc_end c - Z.of_nat K1 * (rc_timestep c * 1000000))%Z -> (rc_start c <= T)%Z ->
    exists r1 f r2 at_T,
      (* the first run completes and its last file is the one of time T *)
      completes (bwd_run (back_until c T) w prev) r1 /\ last (ls_files r1) (0%Z, f) = (T, f) /\
      (* the second run, with only that file present, completes *)
      completes (bwd_run (back_from c T) w (only_file T f)) r2 /\
      (* the first run makes the same first K1 steps as the uninterrupted one *)
      List.length (ls_steps r1) = K1 /\ (forall k, 1 <= k <= K1 -> after_step r k = after_step r1 k) /\
      (* the file holds the storages of time T *)
      after_step r K1 = Some at_T /\
      (forall i j, i < m -> j < n -> at_ (b_s_upper f) i j = at_ (b_s_upper at_T) i j /\
                                     at_ (b_s_lower f) i j = at_ (b_s_lower at_T) i j) /\
      (* and all the other steps lead to the same storages *)
      (forall k x, 1 <= k -> after_step r (K1 + k) = Some x ->
         exists y, after_step r2 k = Some y /\ storage_agrees_b m n x y) /\
      (* if T is an output time and the accumulated fields of time T can be reset, the files of the two runs are those of
         the uninterrupted one *)
      ((T mod rc_output_frequency c = 0)%Z ->
       (forall p, In p [b_e_track; b_tagged; b_losses; b_gains] -> forall i j, i < m -> j < n -> nmul (at_ (p at_T) i j) n0 = n0) ->
       same_files (outputs_agree_b m n) (ls_files r) (ls_files r1 ++ ls_files r2)).
  Proof.
    intros Hdt W Hp Hr Rs Sg HK1 ET HT.
    destruct (bwd_run_traj c w prev r Hdt Hr) as (init & Ei & o & a & tr & tr' & ws & TR).
    destruct (bwd_init_inv m n w rg W c prev init Ei Hp) as (Hi & _).
    change (rc_end c - Z.of_nat K1 * (rc_timestep c * 1000000))%Z with (tbwd c K1) in ET.
    assert (Hd : (0 < rc_dt c)%Z) by (unfold rc_dt, usec; lia).
    pose proof (back_until_steps c K1 T Hdt ET) as N1. pose proof (back_from_steps c K1 T Hdt ET HT) as N2.
    set (c1 := back_until c T) in *. set (c2 := back_from c T) in *.
    assert (Ei1 : bwd_init c1 w prev = OK init) by exact Ei.
    assert (Tm2 : forall k, tbwd c2 k = tbwd c (K1 + k)).
    { intros k. unfold tbwd, c2. cbn [back_from rc_start rc_end]. change (rc_dt (back_from c T)) with (rc_dt c). rewrite ET. unfold tbwd. lia. }
    assert (Hm2 : forall k, hb c2 k = hb c (K1 + k)).
    { intros k. unfold hb. rewrite Tm2. reflexivity. }
    assert (C1 : exists r1, completes (bwd_run c1 w prev) r1).
    { apply (bwd_run_completes c1 w prev init (fun x => shaped_bwd x m n) Hdt Ei1 Hi (bwd_flush_shape m n)).
      intros k x tx Hk Hx. rewrite N1 in Hk.
      destruct (bwd_step_at m n c w rg W init r o a tr tr' ws TR k ltac:(lia)) as (S0 & S1 & F & G & fz & D & E).
      exact (bwd_body_ok m n w rg W c _ _ _ x tx S0 F S1 (bd_S0 _ _ _ _ _ _ _ _ _ _ _ _ _ D) (bd_F _ _ _ _ _ _ _ _ _ _ _ _ _ D) (bd_S1 _ _ _ _ _ _ _ _ _ _ _ _ _ D) Hx). }
    destruct C1 as [r1 C1]. destruct (bwd_run_traj c1 w prev r1 Hdt C1) as (init1 & Ei1' & o1 & a1 & tr1 & tr1' & ws1 & TR1).
    rewrite Ei1 in Ei1'. injection Ei1' as <-.
    pose proof (prefix c c1 _ _ _ _ _ _ _ _ _ _ _ _ _ _ _ _ _ _ _ _ _ _ _ _ _ _ _ _ TR TR1 ltac:(lia)
      (fun k _ => eq_refl)) as Pre.
    assert (Pre' : forall k, k < K1 -> a (S k) = a1 (S k)).
    { intros k Hk. destruct (Pre) with (k := k) as (_ & _ & P3); auto; [|lia].
      intros q Hq. unfold written. change (tbwd c1 q) with (tbwd c q). change (rc_output_frequency c1) with (rc_output_frequency c).
      destruct (Nat.eqb_spec q (nsteps c)), (Nat.eqb_spec q (nsteps c1)); try reflexivity; lia. }
    clear Pre.
    assert (EaK : a K1 = a1 K1).
    { destruct K1 as [|k]; [lia|]. apply (Pre' k). lia. }
    assert (ShA : shaped_bwd (a K1) m n).
    { destruct K1 as [|k]; [lia|].
      eapply bwd_body_shape; [exact W| |exact (tj_body _ _ _ _ _ _ _ _ _ _ _ _ _ _ _ _ _ _ TR k ltac:(lia))].
      apply (bwd_shape_at m n c w rg W init r o a tr tr' ws TR Hi k). lia. }
    assert (Ex : storage_exact_b m n (a K1)).
    { destruct K1 as [|k]; [lia|].
      eapply bwd_body_exact; [exact W|exact Rs|exact Sg| |exact (tj_body _ _ _ _ _ _ _ _ _ _ _ _ _ _ _ _ _ _ TR k ltac:(lia))].
      apply (bwd_shape_at m n c w rg W init r o a tr tr' ws TR Hi k). lia. }
    set (f := bwd_stored (a1 K1)).
    assert (L1 : last (ls_files r1) (0%Z, f) = (T, f)).
    { rewrite (last_file _ _ _ _ _ _ _ _ _ _ _ _ _ _ _ _ _ _ TR1) by lia. rewrite N1. change (tbwd c1 K1) with (tbwd c K1). now rewrite <- ET. }
    assert (ST : exists S, w_states w T = OK S /\ shapedS S m n).
    { destruct K1 as [|k]; [lia|]. destruct (bwd_step_at m n c w rg W init r o a tr tr' ws TR k ltac:(lia)) as (S0 & S1 & F & G & fz & D & E).
      exists S0. rewrite ET. split; [exact (bd_S0 _ _ _ _ _ _ _ _ _ _ _ _ _ D)|]. eapply ws_S; [exact W|exact (bd_S0 _ _ _ _ _ _ _ _ _ _ _ _ _ D)]. }
    destruct ST as (ST & EST & HST).
    assert (Ei2 : exists init2, bwd_init c2 w (only_file T f) = OK init2 /\ shaped_bwd init2 m n /\ bwd_same f init2 /\
       (forall p, In p [b_e_track; b_tagged; b_losses; b_gains] -> forall i j, at_ (p init2) i j = n0)).
    { unfold bwd_init, c2. cbn [back_from rc_start rc_end rc_restart]. rewrite EST. cbn [bind]. unfold only_file. rewrite Z.eqb_refl. cbn [bind].
      eexists. split; [reflexivity|]. destruct HST as [Q1 Q2].
      rewrite EaK in ShA. unfold shaped_bwd in ShA. unfold shaped in *.
      split; [unfold shaped_bwd, shaped, f; cbn; tauto|]. split; [split; reflexivity|]. intros p Hpp i j. cbn in Hpp. repeat (destruct Hpp as [<-|Hpp]; [reflexivity|]). destruct Hpp. }
    destruct Ei2 as (init2 & Ei2 & Hi2 & Hz2). pose proof (proj1 Hz2) as Hs2.
    assert (C2 : exists r2, completes (bwd_run c2 w (only_file T f)) r2).
    { apply (bwd_run_completes c2 w (only_file T f) init2 (fun x => shaped_bwd x m n) Hdt Ei2 Hi2 (bwd_flush_shape m n)).
      intros k x tx Hk Hx.
      destruct (bwd_step_at m n c w rg W init r o a tr tr' ws TR (K1 + k) ltac:(lia)) as (S0 & S1 & F & G & fz & D & E).
      rewrite !Tm2, Hm2. rewrite <- Nat.add_succ_r in D.
      exact (bwd_body_ok m n w rg W c _ _ _ x tx S0 F S1 (bd_S0 _ _ _ _ _ _ _ _ _ _ _ _ _ D) (bd_F _ _ _ _ _ _ _ _ _ _ _ _ _ D) (bd_S1 _ _ _ _ _ _ _ _ _ _ _ _ _ D) Hx). }
    destruct C2 as [r2 C2]. destruct (bwd_run_traj c2 w _ r2 Hdt C2) as (init2' & Ei2' & o2 & a2 & tr2 & tr2' & ws2 & TR2).
    rewrite Ei2 in Ei2'. injection Ei2' as <-.
    assert (St : forall (c' : runcfg N) w' i' r' o' a' t1' t2' ws' (Tx : bwd_traj c' w' i' r' o' a' t1' t2' ws') k, 1 <= k -> after_step r' k = if Nat.leb k (nsteps c') then Some (a' k) else None).
    { intros c' w' i' r' o' a' t1' t2' ws' Tx k Hk. unfold after_step. rewrite (tj_steps _ _ _ _ _ _ _ _ _ _ _ _ _ _ _ _ _ _ Tx).
      destruct (Nat.leb_spec k (nsteps c')).
      - rewrite nth_seq_map by lia. cbn [option_map snd plus]. do 2 f_equal. lia.
      - replace (nth_error _ (k - 1)) with (@None (Z * bwd_out N * bwd_out N)); [reflexivity|]. symmetry. apply nth_error_None. rewrite map_length, seq_length. lia. }
    assert (Wr : forall k, (0 < k)%nat -> written c (tbwd c) (K1 + k) = written c2 (tbwd c2) k).
    { intros q Hq. unfold written. rewrite Tm2. change (rc_output_frequency c2) with (rc_output_frequency c). f_equal.
      rewrite N2. destruct (Nat.eqb_spec (K1 + q) (K1 + nsteps c2)), (Nat.eqb_spec q (nsteps c2)); auto; lia. }
    assert (OK1 : o K1 = if written c (tbwd c) K1 then bwd_flush (a K1) else a K1).
    { destruct K1 as [|q]; [lia|]. exact (tj_flush _ _ _ _ _ _ _ _ _ _ _ _ _ _ _ _ _ _ TR q ltac:(lia)). }
    assert (O20 : o2 0%nat = init2) by exact (tj_init _ _ _ _ _ _ _ _ _ _ _ _ _ _ _ _ _ _ TR2).
    exists r1, f, r2, (a K1). split; [exact C1|]. split; [exact L1|]. split; [exact C2|].
    split; [rewrite (tj_steps _ _ _ _ _ _ _ _ _ _ _ _ _ _ _ _ _ _ TR1), map_length, seq_length; exact N1|].
    split.
    { intros k Hk. rewrite (St _ _ _ _ _ _ _ _ _ TR k), (St _ _ _ _ _ _ _ _ _ TR1 k), N1 by lia.
      destruct (Nat.leb_spec k K1), (Nat.leb_spec k (nsteps c)); try lia. destruct k as [|k]; [lia|]. now rewrite Pre' by lia. }
    split. { rewrite (St _ _ _ _ _ _ _ _ _ TR K1) by lia. destruct (Nat.leb_spec K1 (nsteps c)); [reflexivity|lia]. }
    split. { intros i j Hi' Hj'. destruct (Ex i j Hi' Hj') as [X1 X2]. unfold f. rewrite <- EaK. split; [exact X1|exact X2]. }
    split.
    { intros k x Hk Hx. rewrite (St _ _ _ _ _ _ _ _ _ TR (K1 + k)) in Hx by lia.
    destruct (Nat.leb_spec (K1 + k) (nsteps c)); [|discriminate]. injection Hx as <-.
    exists (a2 k). rewrite (St _ _ _ _ _ _ _ _ _ TR2 k) by lia. destruct (Nat.leb_spec k (nsteps c2)); [|lia]. split; [reflexivity|].
    set (Rl := fun x y : bwd_out N => storage_agrees_b m n x y /\ shaped_bwd x m n /\ shaped_bwd y m n).
    assert (BodySim : forall k x y t1 t2 x' y' t1' t2' w1 w2, (k < nsteps c2)%nat -> Rl x y ->
          bwd_body c w (tbwd c (S (K1 + k))) (hb c (K1 + k)) (tbwd c (K1 + k)) x t1 = OK (x', t1', w1) ->
          bwd_body c2 w (tbwd c2 (S k)) (hb c2 k) (tbwd c2 k) y t2 = OK (y', t2', w2) -> Rl x' y').
    { intros q x y t1 t2 x' y' t1' t2' w1 w2 Hq (R1 & R2 & R3) B1 B2. rewrite !Tm2, Hm2 in B2.
      rewrite Nat.add_succ_r in B2. change (bwd_body c2 w) with (bwd_body c w) in B2.
      split; [exact (proj1 (bwd_body_agree m n c w rg _ _ _ x y t1 t2 x' y' t1' t2' w1 w2 W R2 R3 R1 B1 B2))|].
      split; [exact (bwd_body_shape m n c w rg _ _ _ x t1 x' t1' w1 W R2 B1)|exact (bwd_body_shape m n c w rg _ _ _ y t2 y' t2' w2 W R3 B2)]. }
    assert (Sim0 : Rl (o K1) (o2 0%nat)).
    { rewrite OK1, O20. split; [|split; [|exact Hi2]].
      - assert (Q : storage_agrees_b m n (a K1) init2).
        { intros i j Hi' Hj'. destruct Hs2 as [<- <-]. destruct (Ex i j Hi' Hj') as [X1 X2]. unfold f. cbn [bwd_stored b_s_upper b_s_lower stored at_].
          rewrite <- EaK. rewrite X1, X2. auto. }
        destruct (written c (tbwd c) K1); exact Q.
      - destruct (written c (tbwd c) K1); [now apply bwd_flush_shape|exact ShA]. }
    assert (FlSim : forall x y, Rl x y -> Rl (bwd_flush x) (bwd_flush y)).
    { intros x y (R1 & R2 & R3). split; [exact R1|]. split; now apply bwd_flush_shape. }
    pose proof (shift_a c c2 _ _ _ _ _ _ _ _ _ _ _ _ _ _ _ _ _ _ _ _ _ _ _ _ _ _ _ _ _ _ TR TR2 K1 Rl N2 Wr BodySim FlSim Sim0 (k - 1) ltac:(lia)) as Q.
    replace (S (K1 + (k - 1))) with (K1 + k) in Q by lia. replace (S (k - 1)) with k in Q by lia. exact (proj1 Q). }
    intros Hout Hrs. assert (WK : written c (tbwd c) K1 = true) by (unfold written; rewrite <- ET, Hout; reflexivity).
    set (Rl := fun x y : bwd_out N => outputs_agree_b m n x y /\ shaped_bwd x m n /\ shaped_bwd y m n).
    assert (BodySim : forall k x y t1 t2 x' y' t1' t2' w1 w2, (k < nsteps c2)%nat -> Rl x y ->
          bwd_body c w (tbwd c (S (K1 + k))) (hb c (K1 + k)) (tbwd c (K1 + k)) x t1 = OK (x', t1', w1) ->
          bwd_body c2 w (tbwd c2 (S k)) (hb c2 k) (tbwd c2 k) y t2 = OK (y', t2', w2) -> Rl x' y').
    { intros q x y t1 t2 x' y' t1' t2' w1 w2 Hq (R1 & R2 & R3) B1 B2. rewrite !Tm2, Hm2 in B2.
      rewrite Nat.add_succ_r in B2. change (bwd_body c2 w) with (bwd_body c w) in B2.
      assert (R0 : storage_agrees_b m n x y) by (intros i j Hi' Hj'; split; apply R1; cbn; auto).
      split; [exact (proj2 (bwd_body_agree m n c w rg _ _ _ x y t1 t2 x' y' t1' t2' w1 w2 W R2 R3 R0 B1 B2) R1)|].
      split; [exact (bwd_body_shape m n c w rg _ _ _ x t1 x' t1' w1 W R2 B1)|exact (bwd_body_shape m n c w rg _ _ _ y t2 y' t2' w2 W R3 B2)]. }
    assert (Sim0 : Rl (o K1) (o2 0%nat)).
    { rewrite OK1, O20, WK. split; [|split; [now apply bwd_flush_shape|exact Hi2]].
      intros p Hpp i j Hi' Hj'. destruct (Ex i j Hi' Hj') as [X1 X2]. destruct Hz2 as [[S1 S2] Z2].
      destruct Hpp as [<-|[<-|Hpp]].
      - rewrite <- S1. unfold f. rewrite <- EaK. cbn. now rewrite X1.
      - rewrite <- S2. unfold f. rewrite <- EaK. cbn. now rewrite X2.
      - rewrite (Z2 p Hpp), <- (Hrs p Hpp i j Hi' Hj'). cbn in Hpp. repeat (destruct Hpp as [<-|Hpp]; [reflexivity|]). destruct Hpp. }
    assert (FlSim : forall x y, Rl x y -> Rl (bwd_flush x) (bwd_flush y)).
    { intros x y (R1 & R2 & R3). split; [|split; now apply bwd_flush_shape]. intros p Hpp i j Hi' Hj'.
      destruct Hpp as [<-|[<-|Hpp]]; [exact (R1 b_s_upper ltac:(cbn; auto) i j Hi' Hj')|exact (R1 b_s_lower ltac:(cbn; auto) i j Hi' Hj')|].
      pose proof (R1 p (or_intror (or_intror Hpp)) i j Hi' Hj') as E. cbn in Hpp. repeat (destruct Hpp as [<-|Hpp]; [cbn; now rewrite E|]). destruct Hpp. }
    pose proof (shift_a c c2 _ _ _ _ _ _ _ _ _ _ _ _ _ _ _ _ _ _ _ _ _ _ _ _ _ _ _ _ _ _ TR TR2 K1 Rl N2 Wr BodySim FlSim Sim0) as ShA2.
    rewrite (tj_files _ _ _ _ _ _ _ _ _ _ _ _ _ _ _ _ _ _ TR), (tj_files _ _ _ _ _ _ _ _ _ _ _ _ _ _ _ _ _ _ TR1), (tj_files _ _ _ _ _ _ _ _ _ _ _ _ _ _ _ _ _ _ TR2).
    rewrite N2, N1, seq_app, filter_app, map_app. apply Forall2_app.
    - assert (Ff : filter (written c (tbwd c)) (seq 1 K1) = filter (written c1 (tbwd c1)) (seq 1 K1)).
      { apply filter_ext_in. intros k Hk. apply in_seq in Hk. unfold written. change (tbwd c1 k) with (tbwd c k).
        change (rc_output_frequency c1) with (rc_output_frequency c). rewrite N1.
        destruct (Nat.eqb_spec k K1); [|destruct (Nat.eqb_spec k (nsteps c)); [lia|reflexivity]].
        subst k. rewrite <- ET, Hout. reflexivity. }
      rewrite Ff. apply Forall2_map_seq. intros k Hk _. apply in_seq in Hk.
      cbn [fst snd]. split; [reflexivity|]. destruct k as [|k]; [lia|]. rewrite (Pre' k) by lia. intros p _ i j _ _. reflexivity.
    - apply (Forall2_shift _ _ _ _ _ K1 (nsteps c2) 1). intros k Hk. split; [apply Wr; lia|]. cbn [fst snd]. split; [now rewrite Tm2|].
      destruct k as [|k]; [lia|]. rewrite Nat.add_succ_r. destruct (ShA2 k ltac:(lia)) as (R1 & _).
      intros p Hpp i j Hi' Hj'. pose proof (R1 p Hpp i j Hi' Hj') as E. cbn in Hpp. repeat (destruct Hpp as [<-|Hpp]; [cbn in *; now rewrite E|]). destruct Hpp.
  Qed.
End Restart.

(** ** a small world in the program's arithmetic *)
(** a 3x3 world with constant fields: storages of 16 kg/m2, wind of 1/4, evaporation [e], everything tagged *)
Definition b64 (num den : Z) : F64 := f64_div (f64_ofZ num) (f64_ofZ den).
Definition sixteen64 : F64 := Eval vm_compute in b64 16 1.
Definition quarter64 : F64 := Eval vm_compute in b64 1 4.
Definition one64 : F64 := Eval vm_compute in b64 1 1.
Definition zero64v : F64 := Eval vm_compute in b64 0 1.
Definition tenth64 : F64 := Eval vm_compute in b64 1 10.
Definition cst64 (x : F64) : arr F64 := mkarr 3 3 (fun _ _ => x).
Definition world64 (e : F64) : world F64 :=
  mkworld F64 (fun _ => OK (mkstates F64 (cst64 sixteen64) (cst64 sixteen64)))
    (fun _ => OK (mkfluxes F64 (cst64 quarter64) (cst64 quarter64) (cst64 quarter64) (cst64 quarter64) (cst64 e) (cst64 zero64v)))
    (mkgrid F64 3 (fun _ => one64) one64 (fun _ => one64)) (fun _ => one64) (fun _ => OK (cst64 one64)).
(** two steps of one second, output every hour *)
Definition cfg64 : runcfg F64 := mkruncfg F64 0 2000000 1 zero64v false 0 2000000 3600000000 false.
Definition no_file64 (t : Z) : res (fwd_out F64) := Err FileNotFoundError.


Lemma world64_shape e : world_shape 3 3 (world64 e) (fun _ _ _ => one64).
Proof.
  constructor; cbn; auto; try lia.
  - intros t S E. injection E as <-. repeat split.
  - intros t F E. injection E as <-. repeat split.
  - intros t. left. eexists. repeat split.
Qed.
Lemma run64_completes e c prev : rc_timestep c = 1%Z -> rc_restart c = false \/ (exists f, prev (rc_start c) = OK f /\ shaped_fwd f 3 3) ->
  exists r, completes (fwd_run c (world64 e) prev) r.
Proof.
  intros Hdt Hp. destruct (fwd_init c (world64 e) prev) as [init|] eqn:Ei.
  - apply (fwd_run_completes c (world64 e) prev init (fun x => shaped_fwd x 3 3)); auto; try apply fwd_flush_shape; try (rewrite Hdt; reflexivity).
    + unfold fwd_init in Ei. cbn [world64 w_states bind] in Ei. destruct (rc_restart c).
      * destruct Hp as [Hp|(f & Ef & Hf)]; [discriminate|]. rewrite Ef in Ei. cbn [bind] in Ei. injection Ei as <-.
        unfold shaped_fwd in *. cbn. unfold shaped in *. cbn. tauto.
      * injection Ei as <-. unfold shaped_fwd, shaped. cbn. tauto.
    + intros k x tr Hk Hx. eapply (fwd_body_ok 3 3 _ _ (world64_shape e)); auto; reflexivity.
  - exfalso. unfold fwd_init in Ei. cbn [world64 w_states bind] in Ei. destruct (rc_restart c); [|discriminate].
    destruct Hp as [Hp|(f & Ef & Hf)]; [discriminate|]. rewrite Ef in Ei. discriminate.
Qed.

(** outputs given by tables of the two storages, for evaluation *)
Definition table64 (u l : list (list F64)) : fwd_out F64 :=
  let z := cst64 zero64v in
  let get l := mkarr 3 3 (fun i j => nth j (nth i l []) zero64v) in
  mkfwd F64 (get u) (get l) z z z z z.
Definition tabulated (x : fwd_out F64) : fwd_out F64 :=
  let tab a := map (fun i => map (fun j => at_ a i j) [0; 1; 2]) [0; 1; 2] in
  table64 (tab (f_s_upper x)) (tab (f_s_lower x)).
Lemma table64_shape u l : shaped_fwd (table64 u l) 3 3.
Proof. repeat split. Qed.
Lemma tabulated_agrees x : storage_agrees_f 3 3 x (tabulated x).
Proof.
  intros i j Hi Hj. destruct i as [|[|[|i]]]; try lia; destruct j as [|[|[|j]]]; try lia; split; reflexivity.
Qed.
(** a step of the loop on tables *)
Definition step64 (e : F64) (x : fwd_out F64) : fwd_out F64 :=
  match fwd_body cfg64 (world64 e) 0%Z 500000%Z 1000000%Z x tracker0 with OK (y, _, _) => tabulated y | Err _ => x end.
Lemma step64_agrees e c t0 th t1 x tx y ty ws z : rc_timestep c = 1%Z -> rc_kvf c = zero64v -> rc_periodic c = false ->
  (rc_tag_start c <= 0)%Z -> (2000000 <= rc_tag_end c)%Z -> (0 <= t0 <= 2000000)%Z ->
  shaped_fwd x 3 3 -> shaped_fwd z 3 3 -> storage_agrees_f 3 3 x z ->
  fwd_body c (world64 e) t0 th t1 x tx = OK (y, ty, ws) -> storage_agrees_f 3 3 y (step64 e z).
Proof.
  intros H1 H2 H3 H4 H5 H6 Sx Sz A B. unfold step64.
  destruct (fwd_body_ok 3 3 _ _ (world64_shape e) cfg64 0%Z 500000%Z 1000000%Z z tracker0 _ _ _ eq_refl eq_refl eq_refl Sz)
    as (q & tq & wq & Eq & Sq). rewrite Eq.
  assert (E : forall x t, fwd_body c (world64 e) t0 th t1 x t = fwd_body cfg64 (world64 e) 0%Z 500000%Z 1000000%Z x t).
  { intros x' t'. unfold fwd_body, mask_at, stepcfg_of. rewrite H1, H2, H3. cbn [world64 w_states w_fluxes bind w_region cfg64 rc_tag_start rc_tag_end rc_timestep rc_kvf rc_periodic].
    replace (Z.leb (rc_tag_start c) t0) with true by (symmetry; apply Z.leb_le; lia).
    replace (Z.leb t0 (rc_tag_end c)) with true by (symmetry; apply Z.leb_le; lia). reflexivity. }
  rewrite E in B. pose proof (proj1 (fwd_body_agree 3 3 _ _ _ _ _ _ _ _ _ _ _ _ _ _ _ _ (world64_shape e) Sx Sz A B Eq)) as Q.
  intros i j Hi Hj. destruct (Q i j Hi Hj) as [-> ->]. exact (tabulated_agrees q i j Hi Hj).
Qed.
Lemma step64_shape e x : shaped_fwd x 3 3 -> shaped_fwd (step64 e x) 3 3.
Proof. unfold step64. intros H. destruct (fwd_body _ _ _ _ _ _ _) as [[[y ?] ?]|]; [apply table64_shape|exact H]. Qed.
Definition zero64 : fwd_out F64 := table64 [] [].
(** the storages of a two-step run *)
Lemma two_steps64 e r : completes (fwd_run cfg64 (world64 e) no_file64) r -> exists x1 x2,
  after_step r 1 = Some x1 /\ after_step r 2 = Some x2 /\ storage_agrees_f 3 3 x1 (step64 e zero64) /\
  storage_agrees_f 3 3 x2 (step64 e (step64 e zero64)).
Proof.
  intros Hr. destruct (fwd_run_traj cfg64 _ _ _ ltac:(reflexivity) Hr) as (init & Ei & o & a & tr & tr' & ws & TR).
  injection Ei as <-. exists (a 1), (a 2).
  assert (O0 : o 0 = fwd_zero (mkstates F64 (cst64 sixteen64) (cst64 sixteen64))) by exact (tj_init _ _ _ _ _ _ _ _ _ _ _ _ _ _ _ _ _ _ TR).
  assert (N2 : nsteps cfg64 = 2) by reflexivity.
  assert (S0 : shaped_fwd (o 0) 3 3) by (rewrite O0; repeat split).
  assert (Z : shaped_fwd zero64 3 3) by apply table64_shape.
  pose proof (tj_body _ _ _ _ _ _ _ _ _ _ _ _ _ _ _ _ _ _ TR 0 ltac:(rewrite N2; lia)) as B0.
  pose proof (tj_body _ _ _ _ _ _ _ _ _ _ _ _ _ _ _ _ _ _ TR 1 ltac:(rewrite N2; lia)) as B1.
  assert (A0 : storage_agrees_f 3 3 (o 0) zero64).
  { rewrite O0. intros i j _ _. unfold zero64, table64. cbn [f_s_upper f_s_lower at_ fwd_zero zeros].
    destruct i, j; split; reflexivity. }
  assert (A1 : storage_agrees_f 3 3 (a 1) (step64 e zero64)).
  { refine (step64_agrees e cfg64 _ _ _ (o 0) _ (a 1) _ _ zero64 eq_refl eq_refl eq_refl _ _ _ S0 Z A0 B0); vm_compute; split || idtac; discriminate. }
  assert (S1 : shaped_fwd (a 1) 3 3) by exact (fwd_body_shape 3 3 _ _ _ _ _ _ _ _ _ _ _ (world64_shape e) S0 B0).
  pose proof (tj_flush _ _ _ _ _ _ _ _ _ _ _ _ _ _ _ _ _ _ TR 0 ltac:(rewrite N2; lia)) as F0.
  assert (S1' : shaped_fwd (o 1) 3 3) by (rewrite F0; destruct (written _ _ _); [now apply fwd_flush_shape|exact S1]).
  assert (A1' : storage_agrees_f 3 3 (o 1) (step64 e zero64)).
  { rewrite F0. destruct (written _ _ _); exact A1. }
  split; [unfold after_step; rewrite (tj_steps _ _ _ _ _ _ _ _ _ _ _ _ _ _ _ _ _ _ TR); reflexivity|].
  split; [unfold after_step; rewrite (tj_steps _ _ _ _ _ _ _ _ _ _ _ _ _ _ _ _ _ _ TR); reflexivity|].
  split; [exact A1|].
  refine (step64_agrees e cfg64 _ _ _ (o 1) _ (a 2) _ _ (step64 e zero64) eq_refl eq_refl eq_refl _ _ _ S1' (step64_shape e _ Z) A1' B1);
    vm_compute; split || idtac; discriminate.
Qed.
(** ** the program's arithmetic *)
Lemma settles64 : rounding_settles F64.
Proof. split; [exact nstore_idem|reflexivity]. Qed.

(** a number that is finite and not negative (nor -0) *)
Definition finite_nonneg64 (x : F64) : Prop := match x with S754_zero false | S754_finite false _ _ => True | _ => False end.
Lemma reset64 (x : F64) : finite_nonneg64 x -> @nmul F64 x n0 = n0.
Proof. destruct x as [[|]|[|]| |[|] p e]; cbn; intros H; try contradiction; reflexivity. Qed.

(** In the program's arithmetic: a run that is stopped at time T and continued from the file of time T goes through
    the same storages as the uninterrupted run, to the last bit. *)
Theorem C81_forward_restart m n (c : runcfg F64) w rg prev r K1 T :
  (0 < rc_timestep c)%Z -> world_shape m n w rg -> prev_shape_f c prev m n -> completes (fwd_run c w prev) r ->
  single_states m n w ->
  0 < K1 -> T = (rc_start c + Z.of_nat K1 * (rc_timestep c * 1000000))%Z -> (T <= rc_end c)%Z ->
  exists r1 f r2,
    completes (fwd_run (until c T) w prev) r1 /\ last (ls_files r1) (0%Z, f) = (T, f) /\
    completes (fwd_run (from c T) w (only_file T f)) r2 /\
    List.length (ls_steps r1) = K1 /\ (forall k, 1 <= k <= K1 -> after_step r k = after_step r1 k) /\
    (forall k x, 1 <= k -> after_step r (K1 + k) = Some x -> exists y, after_step r2 k = Some y /\ storage_agrees_f m n x y) /\
    (* if T is an output time and all accumulated numbers of time T are finite and not negative: the same files *)
    ((T mod rc_output_frequency c = 0)%Z ->
     (forall x p i j, after_step r K1 = Some x -> In p [f_p_upper; f_p_lower; f_tagged; f_losses; f_gains] -> i < m -> j < n -> finite_nonneg64 (at_ (p x) i j)) ->
     same_files (outputs_agree_f m n) (ls_files r) (ls_files r1 ++ ls_files r2)).
Proof.
  intros Hdt W Hp Hr Sg HK ET HT.
  destruct (C81_forward_restart_any_arithmetic m n c w rg prev r K1 T Hdt W Hp Hr settles64 Sg HK ET HT)
    as (r1 & f & r2 & x & A & B & C & D & E & Q & _ & G & Fl). exists r1, f, r2. repeat (split; [assumption|]).
  intros HT' Fin. apply Fl; [exact HT'|]. intros p Hp' i j Hi Hj. apply reset64. exact (Fin x p i j Q Hp' Hi Hj).
Qed.
Theorem C81_backward_restart m n (c : runcfg F64) w rg prev r K1 T :
  (0 < rc_timestep c)%Z -> world_shape m n w rg -> prev_shape_b c prev m n -> completes (bwd_run c w prev) r ->
  single_states m n w ->
  0 < K1 -> T = (rc_end c - Z.of_nat K1 * (rc_timestep c * 1000000))%Z -> (rc_start c <= T)%Z ->
  exists r1 f r2,
    completes (bwd_run (back_until c T) w prev) r1 /\ last (ls_files r1) (0%Z, f) = (T, f) /\
    completes (bwd_run (back_from c T) w (only_file T f)) r2 /\
    List.length (ls_steps r1) = K1 /\ (forall k, 1 <= k <= K1 -> after_step r k = after_step r1 k) /\
    (forall k x, 1 <= k -> after_step r (K1 + k) = Some x -> exists y, after_step r2 k = Some y /\ storage_agrees_b m n x y) /\
    (* if T is an output time and all accumulated numbers of time T are finite and not negative: the same files *)
    ((T mod rc_output_frequency c = 0)%Z ->
     (forall x p i j, after_step r K1 = Some x -> In p [b_e_track; b_tagged; b_losses; b_gains] -> i < m -> j < n -> finite_nonneg64 (at_ (p x) i j)) ->
     same_files (outputs_agree_b m n) (ls_files r) (ls_files r1 ++ ls_files r2)).
Proof.
  intros Hdt W Hp Hr Sg HK ET HT.
  destruct (C81_backward_restart_any_arithmetic m n c w rg prev r K1 T Hdt W Hp Hr settles64 Sg HK ET HT)
    as (r1 & f & r2 & x & A & B & C & D & E & Q & _ & G & Fl). exists r1, f, r2. repeat (split; [assumption|]).
  intros HT' Fin. apply Fl; [exact HT'|]. intros p Hp' i j Hi Hj. apply reset64. exact (Fin x p i j Q Hp' Hi Hj).
Qed.

(** The hypothesis on the input holds when it is read from float32 files, interpolated in time or not. *)
Theorem C81_files_in_single_precision m n cal dir (fs : folder F64) crop freq (g : grid F64) coslat region :
  (forall name f t s, fs name = Some f -> In (t, s) f -> shapedS (sl_states (crop s)) m n /\
     forall i j, i < m -> j < n ->
       nstore (at_ (s_upper (sl_states (crop s))) i j) = at_ (s_upper (sl_states (crop s))) i j /\
       nstore (at_ (s_lower (sl_states (crop s))) i j) = at_ (s_lower (sl_states (crop s))) i j) ->
  single_states m n (file_world cal dir fs crop freq g coslat region).
Proof.
  intros H t X. cbn [file_world w_states]. unfold load_states, load_data.
  assert (L : forall u s, load_slice cal dir fs crop u = OK s -> shapedS (sl_states s) m n /\
     forall i j, i < m -> j < n -> nstore (at_ (s_upper (sl_states s)) i j) = at_ (s_upper (sl_states s)) i j /\
       nstore (at_ (s_lower (sl_states s)) i j) = at_ (s_lower (sl_states s)) i j).
  { intros u s E. apply load_slice_in in E. destruct E as (nm & f & t' & s' & E & Hi & ->). exact (H nm f t' s' E Hi). }
  destruct (Z.eqb t (round_floor t freq) || Z.eqb t (round_ceil t freq))%bool.
  { destruct (load_slice cal dir fs crop t) as [s|] eqn:E; [|discriminate]. cbn [bind]. intros Q. injection Q as <-. exact (proj2 (L _ _ E)). }
  destruct (load_slice cal dir fs crop (round_floor t freq)) as [a|] eqn:Ea; [|discriminate].
  destruct (load_slice cal dir fs crop (round_ceil t freq)) as [b|] eqn:Eb; [|discriminate]. cbn [bind].
  destruct (L _ _ Ea) as [A _]. destruct (L _ _ Eb) as [B _]. clear L H Ea Eb.
  unfold lerp_states. destruct A as [[? ?] [? ?]], B as [[? ?] [? ?]].
  match goal with |- context [lerp ?v (s_upper (sl_states a))] => set (w := v) end.
  destruct (lerp_single m n w (s_upper (sl_states a)) (s_upper (sl_states b)) settles64) as (u & Eu & Hu); auto.
  destruct (lerp_single m n w (s_lower (sl_states a)) (s_lower (sl_states b)) settles64) as (l & El & Hl); auto.
  rewrite Eu, El. cbn [bind]. intros Q. injection Q as <-. intros i j Hi Hj. cbn [s_upper s_lower]. auto.
Qed.

(** the hypotheses are met by a run with evaporation of 0.1 over storages of 16 kg/m2, where the storages after the first
    step are not zero *)
Example C81_world : single_states 3 3 (world64 tenth64).
Proof. intros t S E. injection E as <-. intros i j _ _. split; reflexivity. Qed.
Example C81_case : exists r, completes (fwd_run cfg64 (world64 tenth64) no_file64) r /\
  exists x, after_step r 1 = Some x /\ SFltb (f64_ofZ 0) (at_ (f_s_lower x) 1 1) = true /\
  exists y, after_step r 2 = Some y.
Proof.
  destruct (run64_completes tenth64 cfg64 no_file64 eq_refl (or_introl eq_refl)) as [r Hr]. exists r. split; [exact Hr|].
  destruct (two_steps64 _ r Hr) as (x1 & x2 & E1 & E2 & Q1 & _). exists x1. split; [exact E1|]. split; [|eauto].
  destruct (Q1 1 1 ltac:(lia) ltac:(lia)) as [_ ->]. vm_cast_no_check (eq_refl true).
Qed.
(** ... and with an output file every second, the file of the first step has finite and non-negative accumulated fields *)
Definition cfg64_files : runcfg F64 := mkruncfg F64 0 2000000 1 zero64v false 0 2000000 1000000 false.
Definition finite_nonneg64b (x : F64) : bool := match x with S754_zero false | S754_finite false _ _ => true | _ => false end.
Example C81_files_case : exists r, completes (fwd_run cfg64_files (world64 tenth64) no_file64) r /\
  (1000000 mod rc_output_frequency cfg64_files = 0)%Z /\
  forall x p i j, after_step r 1 = Some x -> In p [f_p_upper; f_p_lower; f_tagged; f_losses; f_gains] -> i < 3 -> j < 3 -> finite_nonneg64 (at_ (p x) i j).
Proof.
  destruct (run64_completes tenth64 cfg64_files no_file64 eq_refl (or_introl eq_refl)) as [r Hr]. exists r. split; [exact Hr|]. split; [reflexivity|].
  destruct (fwd_run_traj cfg64_files _ _ _ ltac:(reflexivity) Hr) as (init & Ei & o & a & tr & tr' & ws & TR). injection Ei as <-.
  pose proof (tj_body _ _ _ _ _ _ _ _ _ _ _ _ _ _ _ _ _ _ TR 0 ltac:(change (nsteps cfg64_files) with 2; lia)) as B0.
  intros x p i j Ex Hp Hi Hj.
  assert (E1 : after_step r 1 = Some (a 1)) by (unfold after_step; rewrite (tj_steps _ _ _ _ _ _ _ _ _ _ _ _ _ _ _ _ _ _ TR); reflexivity).
  rewrite E1 in Ex. injection Ex as <-.
  rewrite (tj_init _ _ _ _ _ _ _ _ _ _ _ _ _ _ _ _ _ _ TR), (tj_tr0 _ _ _ _ _ _ _ _ _ _ _ _ _ _ _ _ _ _ TR) in B0. clear TR E1 Hr.
  assert (X : match fwd_body cfg64_files (world64 tenth64) (tfwd cfg64_files 0) (hf cfg64_files 0) (tfwd cfg64_files 1)
      (fwd_zero (mkstates F64 (cst64 sixteen64) (cst64 sixteen64)))
      (store_fwd (w_coslat (world64 tenth64)) (rc_periodic cfg64_files) tracker0 (fwd_zero (mkstates F64 (cst64 sixteen64) (cst64 sixteen64)))) with
    | OK (y, _, _) => forallb (fun p => forallb (fun i => forallb (fun j => finite_nonneg64b (at_ (p y) i j)) (seq 0 3)) (seq 0 3))
        [f_p_upper; f_p_lower; f_tagged; f_losses; f_gains]
    | Err _ => false end = true) by (vm_cast_no_check (eq_refl true)).
  rewrite B0 in X. rewrite forallb_forall in X. specialize (X p Hp). rewrite forallb_forall in X. specialize (X i ltac:(apply in_seq; lia)).
  rewrite forallb_forall in X. specialize (X j ltac:(apply in_seq; lia)).
  destruct (at_ (p (a 1)) i j) as [[|]|[|]| |[|] ? ?]; try discriminate X; exact Logic.I.
Qed.
