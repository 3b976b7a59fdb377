(** * Cell-wise meaning of the array programs

    Every array function of the model evaluates without error on arrays of matching
    shape, and its entries are given by the functions below, for any number type. *)
From Coq Require Import Arith Lia Bool List ZArith.
From Verif Require Import Num Arr Core Track.
Import ListNotations.

(** [x] is an array of shape (r,c), or a scalar that stands for one. *)
Definition bcast {T} (x : marr T) (r c : nat) (g : nat -> nat -> T) : Prop :=
  is_arr x r c g \/ exists k, x = scal k /\ forall i j, g i j = k.

Lemma bcast_bop_l {T U V} (f : T -> U -> V) x y r c g h :
  bcast x r c g -> is_arr y r c h -> is_arr (bop f x y) r c (fun i j => f (g i j) (h i j)).
Proof.
  intros [Hx | (k & -> & Hk)] Hy.
  - now apply is_arr_bop.
  - eapply is_arr_ext. { eapply is_arr_bop_sl; [apply is_arr_scal | eassumption]. }
    intros; cbn. now rewrite Hk.
Qed.

Lemma is_arr_bind {T} {B} (m : marr T) r c g (P : res B -> Prop) (kk : arr T -> res B) :
  is_arr m r c g ->
  (forall a, nr a = r -> nc a = c -> (forall i j, i < r -> j < c -> at_ a i j = g i j) -> P (kk a)) ->
  P (bind m kk).
Proof. intros (a & -> & Hr & Hc & H) HP. cbn. auto. Qed.

(** operations rounded to single precision *)
Notation add1 x y := (nstore (nadd x y)) (only parsing).
Notation sub1 x y := (nstore (nsub x y)) (only parsing).
Notation mul1 x y := (nstore (nmul x y)) (only parsing).
Notation div1 x y := (nstore (ndiv x y)) (only parsing).
Ltac unf := unfold add, sub, mul, div, add32, sub32, mul32, div32, minimum, maximum, neg, absolute, sign, gt, ge, lt in *.

(** Decompose an array expression of known shape. *)
Ltac arr_tac :=
  unf;
  repeat
  lazymatch goal with
  | |- is_arr (bop _ (scal _) _) _ _ _ => eapply is_arr_bop_sl; [apply is_arr_scal |]
  | |- is_arr (bop _ _ (scal _)) _ _ _ => eapply is_arr_bop_sr; [| apply is_arr_scal]
  | |- is_arr (bop _ _ (a_col _)) _ _ _ =>
      eapply is_arr_bop_cr; [| solve [apply is_arr_colvec | eauto]]
  | |- is_arr (bop _ ?x _) _ _ _ =>
      first [ match goal with H : bcast x _ _ _ |- _ => eapply bcast_bop_l; [exact H|] end
            | eapply is_arr_bop ]
  | |- is_arr (where_ _ (scal _) _) _ _ _ => eapply is_arr_where_sl; [| apply is_arr_scal |]
  | |- is_arr (where_ _ _ (scal _)) _ _ _ => eapply is_arr_where_sr; [| | apply is_arr_scal ]
  | |- is_arr (where_ _ _ _) _ _ _ => eapply is_arr_where
  | |- is_arr (uop _ _) _ _ _ => eapply is_arr_uop
  | |- is_arr (val ?x) _ _ _ => apply is_arr_val; solve [eassumption | lia]
  end.

Section Cells.
  Context {N : NumOps}.
  Notation fld := (nat -> nat -> N).
  Implicit Types (m n : nat) (per : bool).

  (** a field of shape (m,n) *)
  Definition shaped (a : arr N) m n : Prop := nr a = m /\ nc a = n.
  Definition shapedS (S : states N) m n := shaped (s_upper S) m n /\ shaped (s_lower S) m n.
  Definition shapedF (F : fluxes N) m n :=
    shaped (fx_upper F) m n /\ shaped (fx_lower F) m n /\
    shaped (fy_upper F) m n /\ shaped (fy_lower F) m n /\
    shaped (evap F) m n /\ shaped (precip F) m n.

  Definition padxy r c (g : fld) : fld := fun i j =>
    if Nat.eqb i 0 || Nat.eqb i (r + 1) || Nat.eqb j 0 || Nat.eqb j (c + 1)
    then n0 else g (i - 1) (j - 1).
  Definition padyz r (g : fld) : fld := fun i j =>
    if Nat.eqb i 0 || Nat.eqb i (r + 1) then n0 else g (i - 1) j.
  Definition padxw c (g : fld) : fld := fun i j =>
    if Nat.eqb j 0 then g i (c - 1) else if Nat.eqb j (c + 1) then g i 0 else g i (j - 1).

  (** ** staggering *)
  Definition stagx n (per : bool) (f : fld) : fld := fun i j =>
    if per then
      (if Nat.eqb j 0 || Nat.eqb j n then nmul nhalf (nadd (f (S i) 0) (f (S i) (n - 1)))
       else nmul nhalf (nadd (f (S i) (j - 1)) (f (S i) j)))
    else nmul nhalf (nadd (f (S i) j) (f (S i) (S j))).
  Definition stagy (per : bool) (f : fld) : fld := fun i j =>
    if per then nmul nhalf (nadd (f i j) (f (S i) j))
    else nmul nhalf (nadd (f i (S j)) (f (S i) (S j))).

  Lemma stagger_x_cells (f : arr N) m n per :
    shaped f m n -> 2 <= m -> 2 <= n ->
    is_arr (stagger_x f per) (m - 2) (if per then n + 1 else n - 1) (stagx n per (at_ f)).
  Proof.
    intros [Hr Hc] Hm Hn. unfold stagger_x. destruct per; cbn [negb].
    - eapply is_arr_bind with (r := m) (c := n - 1); [|].
      + arr_tac.
        * eapply is_arr_sl with (r := m) (c := n); [arr_tac | reflexivity | reflexivity].
        * eapply is_arr_sl with (r := m) (c := n); [arr_tac | reflexivity | reflexivity].
      + intros a Ha Hb H. rewrite Hr, Hc.
        eapply is_arr_ext.
        { eapply is_arr_sl with (r := m) (c := n + 1); [| reflexivity | reflexivity].
          eexists; split; [reflexivity|]. cbn. repeat split; auto. }
        cbn. intros i j Hi Hj.
        destruct (Nat.eqb_spec j 0); cbn; auto.
        destruct (Nat.eqb_spec j n); cbn; auto.
        rewrite H by lia. cbn. now replace (S (j - 1)) with j by lia.
    - eapply is_arr_ext.
      { eapply is_arr_sl with (r := m) (c := n - 1); [| reflexivity | reflexivity].
        arr_tac.
        * eapply is_arr_sl with (r := m) (c := n); [arr_tac | reflexivity | reflexivity].
        * eapply is_arr_sl with (r := m) (c := n); [arr_tac | reflexivity | reflexivity]. }
      intros; reflexivity.
  Qed.

  Lemma stagger_y_cells (f : arr N) m n per :
    shaped f m n -> 2 <= m -> 2 <= n ->
    is_arr (stagger_y f per) (m - 1) (if per then n else n - 2) (stagy per (at_ f)).
  Proof.
    intros [Hr Hc] Hm Hn. unfold stagger_y. destruct per.
    - eapply is_arr_ext.
      { arr_tac.
        * eapply is_arr_sl with (r := m) (c := n); [arr_tac | reflexivity | reflexivity].
        * eapply is_arr_sl with (r := m) (c := n); [arr_tac | reflexivity | reflexivity]. }
      intros; reflexivity.
    - eapply is_arr_ext.
      { eapply is_arr_sl with (r := m - 1) (c := n); [| reflexivity | reflexivity].
        arr_tac.
        * eapply is_arr_sl with (r := m) (c := n); [arr_tac | reflexivity | reflexivity].
        * eapply is_arr_sl with (r := m) (c := n); [arr_tac | reflexivity | reflexivity]. }
      intros; reflexivity.
  Qed.

  (** ** boundary *)
  Definition bdry m n (per : bool) (i j : nat) : bool :=
    if per then negb (Nat.leb 1 i && Nat.ltb i (m - 1))
    else negb (Nat.leb 1 i && Nat.ltb i (m - 1) && (Nat.leb 1 j && Nat.ltb j (n - 1))).
  Lemma get_boundary_cells {T} (f : arr T) m n per :
    nr f = m -> nc f = n -> is_arr (get_boundary f per) m n (bdry m n per).
  Proof.
    intros <- <-. unfold get_boundary. eexists; split; [reflexivity|]. cbn. auto.
  Qed.

  (** ** horizontal advection *)
  Definition hadv_sp m n (per : bool) (s : fld) : fld :=
    if per then padyz m (padxw n s) else padxy m n s.
  Definition hadv_up m n (per : bool) (u : fld) : fld :=
    if per then padyz (m - 2) u else padxy (m - 2) (n - 1) u.
  Definition hadv_vp m n (per : bool) (v : fld) : fld :=
    if per then padyz (m - 1) v else padxy (m - 1) (n - 2) v.
  Definition hadv_us m n per (s u : fld) : fld := fun i j =>
    let up := hadv_up m n per u i j in
    if nlt n0 up then nmul up (hadv_sp m n per s (S i) j)
    else nmul up (hadv_sp m n per s (S i) (S j)).
  Definition hadv_vs m n per (s v : fld) : fld := fun i j =>
    let vp := hadv_vp m n per v i j in
    if nlt n0 vp then nmul vp (hadv_sp m n per s (S i) (S j))
    else nmul vp (hadv_sp m n per s i (S j)).
  Definition hadv m n per (s u v : fld) : fld := fun i j =>
    nadd (nsub (hadv_us m n per s u i j) (hadv_us m n per s u i (S j)))
         (nsub (hadv_vs m n per s v (S i) j) (hadv_vs m n per s v i j)).

  Lemma hadv_cells (s u v : arr N) m n per :
    2 <= m -> 2 <= n ->
    shaped s m n ->
    shaped u (m - 2) (if per then n + 1 else n - 1) ->
    shaped v (m - 1) (if per then n else n - 2) ->
    is_arr (horizontal_advection s u v per) m n (hadv m n per (at_ s) (at_ u) (at_ v)).
  Proof.
    intros Hm Hn [Hs1 Hs2] [Hu1 Hu2] [Hv1 Hv2]. unfold horizontal_advection.
    eapply is_arr_bind with (r := m + 2) (c := n + 2) (g := hadv_sp m n per (at_ s)); [|].
    { unfold hadv_sp. destruct per.
      - apply is_arr_pad_y_zero; [|lia]. apply is_arr_pad_x_wrap; try lia. arr_tac.
      - apply is_arr_pad_xy_zero; try lia. arr_tac. }
    intros sp Hsp1 Hsp2 Hsp.
    eapply is_arr_bind with (r := m) (c := n + 1) (g := hadv_up m n per (at_ u)); [|].
    { unfold hadv_up. destruct per.
      - apply is_arr_pad_y_zero; [|lia]. arr_tac.
      - apply is_arr_pad_xy_zero; try lia. arr_tac. }
    intros up Hup1 Hup2 Hup.
    eapply is_arr_bind with (r := m + 1) (c := n) (g := hadv_vp m n per (at_ v)); [|].
    { unfold hadv_vp. destruct per.
      - apply is_arr_pad_y_zero; [|lia]. arr_tac.
      - apply is_arr_pad_xy_zero; try lia. arr_tac. }
    intros vp Hvp1 Hvp2 Hvp. cbv zeta.
    eapply is_arr_bind with (r := m) (c := n + 1) (g := hadv_us m n per (at_ s) (at_ u)); [|].
    { eapply is_arr_ext.
      { arr_tac.
        - eapply is_arr_sl with (r := m + 2) (c := n + 2); [arr_tac | cbn; lia | cbn; lia].
        - eapply is_arr_sl with (r := m + 2) (c := n + 2); [arr_tac | cbn; lia | cbn; lia]. }
      intros i j Hi Hj. cbn [soff]. unfold hadv_us. rewrite Hup, !Hsp by lia. reflexivity. }
    intros us Hus1 Hus2 Hus.
    eapply is_arr_bind with (r := m + 1) (c := n) (g := hadv_vs m n per (at_ s) (at_ v)); [|].
    { eapply is_arr_ext.
      { arr_tac.
        - eapply is_arr_sl with (r := m + 2) (c := n + 2); [arr_tac | cbn; lia | cbn; lia].
        - eapply is_arr_sl with (r := m + 2) (c := n + 2); [arr_tac | cbn; lia | cbn; lia]. }
      intros i j Hi Hj. cbn [soff]. unfold hadv_vs. rewrite Hvp, !Hsp by lia. reflexivity. }
    intros vs Hvs1 Hvs2 Hvs.
    eapply is_arr_bind with (r := m) (c := n); [|].
    { arr_tac.
      - eapply is_arr_sl with (r := m) (c := n + 1); [arr_tac | cbn; lia | cbn; lia].
      - eapply is_arr_sl with (r := m) (c := n + 1); [arr_tac | cbn; lia | cbn; lia]. }
    intros ax Hax1 Hax2 Hax.
    eapply is_arr_bind with (r := m) (c := n); [|].
    { arr_tac.
      - eapply is_arr_sl with (r := m + 1) (c := n); [arr_tac | cbn; lia | cbn; lia].
      - eapply is_arr_sl with (r := m + 1) (c := n); [arr_tac | cbn; lia | cbn; lia]. }
    intros ay Hay1 Hay2 Hay.
    eapply is_arr_ext. { arr_tac. }
    intros i j Hi Hj. cbn. rewrite Hax, Hay by lia. cbn [soff].
    rewrite !Hus, !Hvs by lia. reflexivity.
  Qed.

  (** ** vertical terms *)
  Definition vadv (fv sl su : N) : N := if nle n0 fv then nmul fv su else nmul fv sl.
  Definition vdisp (kvf fv sl su : N) : N := nmul (nmul kvf (nabs fv)) (sub1 su sl).
  Lemma vertical_advection_cells fv sl su m n gv gl gu :
    is_arr fv m n gv -> is_arr sl m n gl -> is_arr su m n gu ->
    is_arr (vertical_advection fv sl su) m n (fun i j => vadv (gv i j) (gl i j) (gu i j)).
  Proof.
    intros Hv Hl Hu. unfold vertical_advection. eapply is_arr_ext.
    { unf. eapply is_arr_where; [eapply is_arr_bop_sr; [eassumption | apply is_arr_scal] | |];
      eapply is_arr_bop; eassumption. }
    intros; reflexivity.
  Qed.
  Lemma vertical_dispersion_cells fv sl su k m n gv gl gu :
    is_arr fv m n gv -> is_arr sl m n gl -> is_arr su m n gu ->
    is_arr (vertical_dispersion fv sl su k) m n
           (fun i j => vdisp k (gv i j) (gl i j) (gu i j)).
  Proof.
    intros Hv Hl Hu. unfold vertical_dispersion. eapply is_arr_ext.
    { arr_tac; eassumption. }
    intros; reflexivity.
  Qed.

  (** ** stability correction: the new fx given fx, the other component fy, s, a *)
  Definition stab1 (dt a fx fy s : N) : N :=
    let x := mul1 fx dt in let y := mul1 fy dt in
    let tot := add1 (nabs x) (nabs y) in
    let lim := nmul (div1 (mul1 nhalf (nabs x)) tot) (nmul s a) in
    ndiv (nmul (nsign x) (nmin (nabs x) lim)) dt.
  (** for the second component the sum is taken in the same order |fx| + |fy| *)
  Definition stab2 (dt a fx fy s : N) : N :=
    let x := mul1 fx dt in let y := mul1 fy dt in
    let tot := add1 (nabs x) (nabs y) in
    let lim := nmul (div1 (mul1 nhalf (nabs y)) tot) (nmul s a) in
    ndiv (nmul (nsign y) (nmin (nabs y) lim)) dt.
  Definition stab2_abs (dt a fx fy s : N) : N :=
    let x := mul1 fx dt in let y := mul1 fy dt in
    let tot := add1 (nabs x) (nabs y) in
    let lim := nmul (div1 (mul1 nhalf (nabs y)) tot) (nmul s a) in
    nmin (nabs y) lim.

  Ltac step_as a :=
    eapply is_arr_bind; [ arr_tac | ]; intros a; intros ? ? ?.

  Lemma stabilize_level_cells (g : grid N) dt fx fy s m n :
    g_rows g = m -> shaped fx m n -> shaped fy m n -> shaped s m n ->
    exists fx' fy' ca cb,
      stabilize_level g dt fx fy s = OK (fx', fy', (ca, cb)) /\
      shaped fx' m n /\ shaped fy' m n /\ shaped ca m n /\ shaped cb m n /\
      (forall i j, i < m -> j < n ->
         at_ fx' i j = stab1 dt (g_area g i) (at_ fx i j) (at_ fy i j) (at_ s i j) /\
         at_ fy' i j = stab2 dt (g_area g i) (at_ fx i j) (at_ fy i j) (at_ s i j) /\
         at_ ca i j = stab2_abs dt (g_area g i) (at_ fx i j) (at_ fy i j) (at_ s i j) /\
         at_ cb i j = nabs (mul1 (at_ fy i j) dt)).
  Proof.
    intros Hg [Hx1 Hx2] [Hy1 Hy2] [Hs1 Hs2]. unfold stabilize_level.
    assert (Ha : is_arr (a_col g) m 1 (fun i _ => g_area g i))
      by (unfold a_col; rewrite Hg; apply is_arr_colvec).
    eapply is_arr_bind with (r := m) (c := n); [arr_tac|]. intros x ? ? Hx.
    eapply is_arr_bind with (r := m) (c := n); [arr_tac|]. intros y ? ? Hy.
    eapply is_arr_bind with (r := m) (c := n); [arr_tac|]. intros sa ? ? Hsa.
    eapply is_arr_bind with (r := m) (c := n); [arr_tac|]. intros xa ? ? Hxa.
    eapply is_arr_bind with (r := m) (c := n); [arr_tac|]. intros ya ? ? Hya.
    eapply is_arr_bind with (r := m) (c := n); [arr_tac|]. intros ta ? ? Hta.
    eapply is_arr_bind with (r := m) (c := n); [arr_tac|]. intros xl ? ? Hxl.
    eapply is_arr_bind with (r := m) (c := n); [arr_tac|]. intros xs ? ? Hxs.
    eapply is_arr_bind with (r := m) (c := n); [arr_tac|]. intros yl ? ? Hyl.
    eapply is_arr_bind with (r := m) (c := n); [arr_tac|]. intros ys ? ? Hys.
    eapply is_arr_bind with (r := m) (c := n); [arr_tac|]. intros fx' ? ? Hfx.
    eapply is_arr_bind with (r := m) (c := n); [arr_tac|]. intros fy' ? ? Hfy.
    exists fx', fy', ys, ya. unfold shaped. repeat split; auto.
    - rewrite Hfx, Hxs, Hxl, Hta, Hxa, Hya, Hsa, Hx, Hy by lia. reflexivity.
    - rewrite Hfy, Hys, Hyl, Hta, Hxa, Hya, Hsa, Hx, Hy by lia. reflexivity.
    - rewrite Hys, Hyl, Hta, Hxa, Hya, Hsa, Hx, Hy by lia. reflexivity.
    - rewrite Hya, Hy by lia. reflexivity.
  Qed.

  Lemma stabilize_fluxes_cells (g : grid N) dt F S m n :
    g_rows g = m -> shapedF F m n -> shapedS S m n ->
    exists F' cu cl du dl,
      stabilize_fluxes g dt F S = OK (F', [(cu, du); (cl, dl)]) /\
      shapedF F' m n /\ shaped cu m n /\ shaped cl m n /\ shaped du m n /\ shaped dl m n /\
      evap F' = evap F /\ precip F' = precip F /\
      forall i j, i < m -> j < n ->
        at_ (fx_upper F') i j = stab1 dt (g_area g i) (at_ (fx_upper F) i j) (at_ (fy_upper F) i j) (at_ (s_upper S) i j) /\
        at_ (fy_upper F') i j = stab2 dt (g_area g i) (at_ (fx_upper F) i j) (at_ (fy_upper F) i j) (at_ (s_upper S) i j) /\
        at_ (fx_lower F') i j = stab1 dt (g_area g i) (at_ (fx_lower F) i j) (at_ (fy_lower F) i j) (at_ (s_lower S) i j) /\
        at_ (fy_lower F') i j = stab2 dt (g_area g i) (at_ (fx_lower F) i j) (at_ (fy_lower F) i j) (at_ (s_lower S) i j) /\
        at_ cu i j = stab2_abs dt (g_area g i) (at_ (fx_upper F) i j) (at_ (fy_upper F) i j) (at_ (s_upper S) i j) /\
        at_ du i j = nabs (mul1 (at_ (fy_upper F) i j) dt) /\
        at_ cl i j = stab2_abs dt (g_area g i) (at_ (fx_lower F) i j) (at_ (fy_lower F) i j) (at_ (s_lower S) i j) /\
        at_ dl i j = nabs (mul1 (at_ (fy_lower F) i j) dt).
  Proof.
    intros Hg (H1 & H2 & H3 & H4 & H5 & H6) (HS1 & HS2).
    destruct (stabilize_level_cells g dt (fx_upper F) (fy_upper F) (s_upper S) m n)
      as (xu & yu & cu & du & E1 & ? & ? & ? & ? & Hu); auto.
    destruct (stabilize_level_cells g dt (fx_lower F) (fy_lower F) (s_lower S) m n)
      as (xl & yl & cl & dl & E2 & ? & ? & ? & ? & Hl); auto.
    unfold stabilize_fluxes. rewrite E1, E2. cbn.
    exists (mkfluxes N xu xl yu yl (evap F) (precip F)), cu, cl, du, dl.
    unfold shapedF; cbn. repeat split; auto; try (now apply Hu); try (now apply Hl);
    match goal with H : shaped ?x _ _ |- _ => now destruct H | _ => idtac end;
    repeat match goal with H : shaped ?x _ _ |- _ => destruct H end; auto.
  Qed.

  (** ** vertical flux *)
  Definition div_cell m n (fx fy : fld) : fld := fun i j =>
    nsub (grad1 n (fx i) j) (grad1 m (fun k => fy k j) i).
  Lemma divergence_cells fx fy m n gx gy :
    2 <= m -> 2 <= n -> is_arr fx m n gx -> is_arr fy m n gy ->
    is_arr (divergence fx fy) m n (div_cell m n gx gy).
  Proof.
    intros Hm Hn Hx Hy. unfold divergence. eapply is_arr_ext.
    { unf. eapply is_arr_bop; [eapply is_arr_gradient_x | eapply is_arr_gradient_y]; eauto. }
    intros; reflexivity.
  Qed.

  Definition mean2 (x1 x0 : N) : N := div1 (add1 x1 x0) n2.
  Definition fz_cell (a dt dvu dvl p e su0 sl0 su1 sl1 : N) : N :=
    let smu := mean2 su1 su0 in
    let sml := mean2 sl1 sl0 in
    let tot := add1 smu sml in
    let foo_u := nadd (sub1 su1 su0)
                   (ndiv (nmul dt (nadd dvu (mul1 p (div1 smu tot)))) a) in
    let foo_l := nadd (sub1 sl1 sl0)
                   (ndiv (nmul dt (nsub (nadd dvl (mul1 p (div1 sml tot))) e)) a) in
    nsub foo_l (nmul (div1 sl1 (add1 sl1 su1)) (nadd foo_u foo_l)).
  Definition fz_lim (kvf dt fz smu sml : N) : N :=
    ndiv (nmul (nsign fz)
               (nmin (nabs fz) (mul1 (nstore (ndiv n1 (nadd kvf n1))) (nmin smu sml)))) dt.

  (** what [fz_closure] computes in cell (i,j) *)
  Definition closure_at m n (g : grid N) dt (F : fluxes N) (S0 S1 : states N) (i j : nat) : N :=
    fz_cell (g_area g i) dt
      (div_cell m n (at_ (fx_upper F)) (at_ (fy_upper F)) i j)
      (div_cell m n (at_ (fx_lower F)) (at_ (fy_lower F)) i j)
      (at_ (precip F) i j) (at_ (evap F) i j)
      (at_ (s_upper S0) i j) (at_ (s_lower S0) i j)
      (at_ (s_upper S1) i j) (at_ (s_lower S1) i j).
  Definition fz_at m n (g : grid N) dt kvf (F : fluxes N) (S0 S1 : states N) (i j : nat) : N :=
    fz_lim kvf dt (closure_at m n g dt F S0 S1 i j)
      (mean2 (at_ (s_upper S1) i j) (at_ (s_upper S0) i j))
      (mean2 (at_ (s_lower S1) i j) (at_ (s_lower S0) i j)).

  Lemma fz_closure_cells (g : grid N) F S0 S1 dt m n :
    2 <= m -> 2 <= n -> g_rows g = m -> shapedF F m n -> shapedS S0 m n -> shapedS S1 m n ->
    exists fz smu sml,
      fz_closure g F S0 S1 dt = OK (fz, smu, sml) /\
      shaped fz m n /\ shaped smu m n /\ shaped sml m n /\
      forall i j, i < m -> j < n ->
        at_ fz i j = closure_at m n g dt F S0 S1 i j /\
        at_ smu i j = mean2 (at_ (s_upper S1) i j) (at_ (s_upper S0) i j) /\
        at_ sml i j = mean2 (at_ (s_lower S1) i j) (at_ (s_lower S0) i j).
  Proof.
    intros Hm Hn Hg (H1 & H2 & H3 & H4 & H5 & H6) (HS1 & HS2) (HS3 & HS4).
    unfold shaped in *.
    repeat match goal with H : _ /\ _ |- _ => destruct H end.
    assert (Ha : is_arr (a_col g) m 1 (fun i _ => g_area g i))
      by (unfold a_col; rewrite Hg; apply is_arr_colvec).
    assert (Du : is_arr (divergence #(fx_upper F) #(fy_upper F)) m n
                   (div_cell m n (at_ (fx_upper F)) (at_ (fy_upper F))))
      by (apply divergence_cells; auto; apply is_arr_val; auto).
    assert (Dl : is_arr (divergence #(fx_lower F) #(fy_lower F)) m n
                   (div_cell m n (at_ (fx_lower F)) (at_ (fy_lower F))))
      by (apply divergence_cells; auto; apply is_arr_val; auto).
    unfold fz_closure.
    eapply is_arr_bind with (r := m) (c := n); [arr_tac|]. intros smu ? ? Hsmu.
    eapply is_arr_bind with (r := m) (c := n); [arr_tac|]. intros sml ? ? Hsml.
    eapply is_arr_bind with (r := m) (c := n); [arr_tac|]. intros st ? ? Hst.
    eapply is_arr_bind with (r := m) (c := n); [arr_tac|]. intros ru ? ? Hru.
    eapply is_arr_bind with (r := m) (c := n); [arr_tac|]. intros rl ? ? Hrl.
    eapply is_arr_bind with (r := m) (c := n); [arr_tac; exact Du|]. intros fu ? ? Hfu.
    eapply is_arr_bind with (r := m) (c := n); [arr_tac; exact Dl|]. intros fl ? ? Hfl.
    eapply is_arr_bind with (r := m) (c := n); [arr_tac|]. intros fz ? ? Hfz.
    exists fz, smu, sml. repeat split; auto.
    - rewrite Hfz, Hfu, Hfl, Hru, Hrl, Hst, Hsmu, Hsml by lia. reflexivity.
    - rewrite Hsmu by lia. reflexivity.
    - rewrite Hsml by lia. reflexivity.
  Qed.

  Lemma calculate_fz_cells (g : grid N) F S0 S1 dt kvf m n :
    2 <= m -> 2 <= n -> g_rows g = m -> shapedF F m n -> shapedS S0 m n -> shapedS S1 m n ->
    is_arr (calculate_fz g F S0 S1 dt kvf) m n (fz_at m n g dt kvf F S0 S1).
  Proof.
    intros. destruct (fz_closure_cells g F S0 S1 dt m n)
      as (fz & smu & sml & E & [? ?] & [? ?] & [? ?] & Hc); auto.
    unfold calculate_fz. rewrite E. cbn [bind]. cbv zeta.
    eapply is_arr_bind with (r := m) (c := n); [arr_tac|]. intros lim ? ? Hlim.
    eapply is_arr_bind with (r := m) (c := n); [arr_tac|]. intros st ? ? Hst.
    eapply is_arr_ext; [arr_tac|].
    intros i j Hi Hj. cbn. destruct (Hc i j Hi Hj) as (E1 & E2 & E3).
    rewrite Hst, Hlim, E1, E2, E3 by lia. reflexivity.
  Qed.

  (** ** corrections *)
  Record corr := mkcorr { c_u : N; c_l : N; c_loss : N; c_gain : N }.
  Definition gain1 (x : N) : N := if nlt x n0 then nopp x else n0.
  (** [b]: boundary cell; [u], [l]: transported storages; [su], [sl]: total storages *)
  Definition corr_cell (b : bool) (u l su sl : N) : corr :=
    let loss0 := if b then add1 u l else n0 in
    let u1 := if b then n0 else u in
    let l1 := if b then n0 else l in
    let ol := nmax n0 (sub1 l1 sl) in
    let ou := nmax n0 (sub1 u1 su) in
    let l2 := add1 (sub1 l1 ol) ou in
    let u2 := add1 (sub1 u1 ou) ol in
    let gain := add1 (gain1 l2) (gain1 u2) in
    let l3 := nmax l2 n0 in
    let u3 := nmax u2 n0 in
    let loss := add1 loss0 (add1 (nmax n0 (sub1 l3 sl)) (nmax n0 (sub1 u3 su))) in
    mkcorr (nmin u3 su) (nmin l3 sl) loss gain.

  Lemma corrections_cells (u l : arr N) S per m n :
    shaped u m n -> shaped l m n -> shapedS S m n ->
    exists u' l' lo ga,
      corrections u l S per = OK (u', l', lo, ga) /\
      shaped u' m n /\ shaped l' m n /\ shaped lo m n /\ shaped ga m n /\
      forall i j, i < m -> j < n ->
        let c := corr_cell (bdry m n per i j) (at_ u i j) (at_ l i j)
                   (at_ (s_upper S) i j) (at_ (s_lower S) i j) in
        at_ u' i j = c_u c /\ at_ l' i j = c_l c /\ at_ lo i j = c_loss c /\ at_ ga i j = c_gain c.
  Proof.
    intros [? ?] [? ?] [[? ?] [? ?]]. unfold corrections.
    eapply is_arr_bind with (r := m) (c := n); [now apply get_boundary_cells|]. intros b ? ? Hb.
    eapply is_arr_bind with (r := m) (c := n); [arr_tac|]. intros lo0 ? ? Hlo0.
    eapply is_arr_bind with (r := m) (c := n); [arr_tac|]. intros u1 ? ? Hu1.
    eapply is_arr_bind with (r := m) (c := n); [arr_tac|]. intros l1 ? ? Hl1.
    eapply is_arr_bind with (r := m) (c := n); [arr_tac|]. intros ol ? ? Hol.
    eapply is_arr_bind with (r := m) (c := n); [arr_tac|]. intros ou ? ? Hou.
    eapply is_arr_bind with (r := m) (c := n); [arr_tac|]. intros l2 ? ? Hl2.
    eapply is_arr_bind with (r := m) (c := n); [arr_tac|]. intros u2 ? ? Hu2.
    eapply is_arr_bind with (r := m) (c := n); [arr_tac|]. intros gl ? ? Hgl.
    eapply is_arr_bind with (r := m) (c := n); [arr_tac|]. intros gu ? ? Hgu.
    eapply is_arr_bind with (r := m) (c := n); [arr_tac|]. intros ga ? ? Hga.
    eapply is_arr_bind with (r := m) (c := n); [arr_tac|]. intros l3 ? ? Hl3.
    eapply is_arr_bind with (r := m) (c := n); [arr_tac|]. intros u3 ? ? Hu3.
    eapply is_arr_bind with (r := m) (c := n); [arr_tac|]. intros ll ? ? Hll.
    eapply is_arr_bind with (r := m) (c := n); [arr_tac|]. intros lu ? ? Hlu.
    eapply is_arr_bind with (r := m) (c := n); [arr_tac|]. intros lo ? ? Hlo.
    eapply is_arr_bind with (r := m) (c := n); [arr_tac|]. intros l4 ? ? Hl4.
    eapply is_arr_bind with (r := m) (c := n); [arr_tac|]. intros u4 ? ? Hu4.
    exists u4, l4, lo, ga. unfold shaped. repeat split; auto.
    all: unfold corr_cell; cbn [c_u c_l c_loss c_gain]; unfold gain1.
    - now rewrite Hu4, Hu3, Hu2, Hou, Hol, Hu1, Hl1, Hb by lia.
    - now rewrite Hl4, Hl3, Hl2, Hou, Hol, Hu1, Hl1, Hb by lia.
    - now rewrite Hlo, Hlo0, Hll, Hlu, Hl3, Hu3, Hl2, Hu2, Hou, Hol, Hu1, Hl1, Hb by lia.
    - now rewrite Hga, Hgl, Hgu, Hl2, Hu2, Hou, Hol, Hu1, Hl1, Hb by lia.
  Qed.

  (** ** the steps *)
  Definition rel (st s : N) : N := nmin (div1 st s) n1.   (* relative concentration, capped *)
  Definition frac (p s su sl : N) : N := div1 (mul1 p s) (add1 su sl).
  Definition wfrac (p s su sl : N) : N := ndiv (nmul p s) (add1 su sl).   (* the same in wide arithmetic *)

  (** transported storages of a forward step: advection tendency [ad], area [a], vertical
      flux [fz], concentrations [rl] [ru], tagged surface flux [src], fraction of precip *)
  Definition fwd_lower (dt k st ad a fz rl ru src pl : N) : N :=
    add1 st (nmul dt
      (nsub (nadd (nadd (nadd (ndiv ad a) (vadv fz rl ru)) (vdisp k fz rl ru)) src)
            (mul1 pl rl))).
  Definition fwd_upper (dt k st ad a fz rl ru pu : N) : N :=
    add1 st (nmul dt
      (nsub (nsub (nsub (ndiv ad a) (vadv fz rl ru)) (vdisp k fz rl ru)) (mul1 pu ru))).
  Definition bwd_lower (dt k st ad a fz rl ru src e : N) : N :=
    add1 st (nmul dt
      (nsub (nadd (nadd (nadd (ndiv ad a) (vadv fz rl ru)) (vdisp k fz rl ru)) src)
            (mul1 e rl))).
  Definition bwd_upper (dt k st ad a fz rl ru src : N) : N :=
    add1 st (nmul dt
      (nadd (nsub (nsub (ndiv ad a) (vadv fz rl ru)) (vdisp k fz rl ru)) src)).

  Section Step.
    Variables (m n : nat) (g : grid N) (c : stepcfg N) (F : fluxes N) (fz : arr N)
              (S1 S0 : states N) (msk : fld).
    Let per := periodic c.
    Let dt := timestep c.

    Section Fwd.
      Variable out : fwd_out N.
      Definition fw_rl : fld := fun i j => rel (at_ (f_s_lower out) i j) (at_ (s_lower S0) i j).
      Definition fw_ru : fld := fun i j => rel (at_ (f_s_upper out) i j) (at_ (s_upper S0) i j).
      Definition fw_pl : fld := fun i j =>
        frac (at_ (precip F) i j) (at_ (s_lower S0) i j) (at_ (s_upper S0) i j) (at_ (s_lower S0) i j).
      Definition fw_pu : fld := fun i j =>
        frac (at_ (precip F) i j) (at_ (s_upper S0) i j) (at_ (s_upper S0) i j) (at_ (s_lower S0) i j).
      Definition fw_tl : fld := fun i j =>
        fwd_lower dt (kvf c) (at_ (f_s_lower out) i j)
          (hadv m n per fw_rl (stagx n per (at_ (fx_lower F))) (stagy per (at_ (fy_lower F))) i j)
          (g_area g i) (at_ fz i j) (fw_rl i j) (fw_ru i j)
          (nmul (msk i j) (at_ (evap F) i j)) (fw_pl i j).
      Definition fw_tu : fld := fun i j =>
        fwd_upper dt (kvf c) (at_ (f_s_upper out) i j)
          (hadv m n per fw_ru (stagx n per (at_ (fx_upper F))) (stagy per (at_ (fy_upper F))) i j)
          (g_area g i) (at_ fz i j) (fw_rl i j) (fw_ru i j) (fw_pu i j).
      Definition fw_corr (i j : nat) : corr :=
        corr_cell (bdry m n per i j) (fw_tu i j) (fw_tl i j)
          (at_ (s_upper S1) i j) (at_ (s_lower S1) i j).
    End Fwd.

    Section Bwd.
      Variable out : bwd_out N.
      Definition bw_rl : fld := fun i j => rel (at_ (b_s_lower out) i j) (at_ (s_lower S1) i j).
      Definition bw_ru : fld := fun i j => rel (at_ (b_s_upper out) i j) (at_ (s_upper S1) i j).
      (* [tagging_mask * precip * s / (s_upper + s_lower)] *)
      Definition bw_pl : fld := fun i j =>
        wfrac (nmul (msk i j) (at_ (precip F) i j)) (at_ (s_lower S1) i j) (at_ (s_upper S1) i j) (at_ (s_lower S1) i j).
      Definition bw_pu : fld := fun i j =>
        wfrac (nmul (msk i j) (at_ (precip F) i j)) (at_ (s_upper S1) i j) (at_ (s_upper S1) i j) (at_ (s_lower S1) i j).
      Definition opp (f : fld) : fld := fun i j => nopp (f i j).
      Definition bw_tl : fld := fun i j =>
        bwd_lower dt (kvf c) (at_ (b_s_lower out) i j)
          (hadv m n per bw_rl (opp (stagx n per (at_ (fx_lower F)))) (opp (stagy per (at_ (fy_lower F)))) i j)
          (g_area g i) (nopp (at_ fz i j)) (bw_rl i j) (bw_ru i j)
          (bw_pl i j) (at_ (evap F) i j).
      Definition bw_tu : fld := fun i j =>
        bwd_upper dt (kvf c) (at_ (b_s_upper out) i j)
          (hadv m n per bw_ru (opp (stagx n per (at_ (fx_upper F)))) (opp (stagy per (at_ (fy_upper F)))) i j)
          (g_area g i) (nopp (at_ fz i j)) (bw_rl i j) (bw_ru i j) (bw_pu i j).
      Definition bw_corr (i j : nat) : corr :=
        corr_cell (bdry m n per i j) (bw_tu i j) (bw_tl i j)
          (at_ (s_upper S0) i j) (at_ (s_lower S0) i j).
    End Bwd.
  End Step.

  Definition shaped_fwd (o : fwd_out N) m n :=
    shaped (f_s_upper o) m n /\ shaped (f_s_lower o) m n /\ shaped (f_p_upper o) m n /\
    shaped (f_p_lower o) m n /\ shaped (f_tagged o) m n /\ shaped (f_losses o) m n /\
    shaped (f_gains o) m n.
  Definition shaped_bwd (o : bwd_out N) m n :=
    shaped (b_s_upper o) m n /\ shaped (b_s_lower o) m n /\ shaped (b_e_track o) m n /\
    shaped (b_tagged o) m n /\ shaped (b_losses o) m n /\ shaped (b_gains o) m n.

  Lemma padxy_ext r c (f f' : fld) i j :
    (forall i j, i < r -> j < c -> f i j = f' i j) -> i < r + 2 -> j < c + 2 ->
    padxy r c f i j = padxy r c f' i j.
  Proof.
    intros H Hi Hj. unfold padxy.
    destruct (Nat.eqb_spec i 0); cbn; auto. destruct (Nat.eqb_spec i (r + 1)); cbn; auto.
    destruct (Nat.eqb_spec j 0); cbn; auto. destruct (Nat.eqb_spec j (c + 1)); cbn; auto.
    apply H; lia.
  Qed.
  Lemma padyz_ext r c (f f' : fld) i j :
    (forall i j, i < r -> j < c -> f i j = f' i j) -> i < r + 2 -> j < c ->
    padyz r f i j = padyz r f' i j.
  Proof.
    intros H Hi Hj. unfold padyz.
    destruct (Nat.eqb_spec i 0); cbn; auto. destruct (Nat.eqb_spec i (r + 1)); cbn; auto.
    apply H; lia.
  Qed.
  Lemma padxw_ext r c (f f' : fld) i j :
    (forall i j, i < r -> j < c -> f i j = f' i j) -> i < r -> j < c + 2 -> 0 < c ->
    padxw c f i j = padxw c f' i j.
  Proof.
    intros H Hi Hj Hc. unfold padxw.
    destruct (Nat.eqb_spec j 0); [apply H; lia|]. destruct (Nat.eqb_spec j (c + 1)); apply H; lia.
  Qed.

  Lemma hadv_ext m n per (s s' u u' v v' : fld) i j :
    2 <= m -> 2 <= n -> i < m -> j < n ->
    (forall i j, i < m -> j < n -> s i j = s' i j) ->
    (forall i j, i < m - 2 -> j < (if per then n + 1 else n - 1) -> u i j = u' i j) ->
    (forall i j, i < m - 1 -> j < (if per then n else n - 2) -> v i j = v' i j) ->
    hadv m n per s u v i j = hadv m n per s' u' v' i j.
  Proof.
    intros Hm Hn Hi Hj Hs Hu Hv.
    assert (Esp : forall i j, i < m + 2 -> j < n + 2 ->
              hadv_sp m n per s i j = hadv_sp m n per s' i j).
    { intros a b Ha Hb. unfold hadv_sp. destruct per.
      - eapply padyz_ext with (c := n + 2); auto. intros. eapply padxw_ext with (r := m); auto. lia.
      - apply padxy_ext; auto. }
    assert (Eup : forall i j, i < m -> j < n + 1 ->
              hadv_up m n per u i j = hadv_up m n per u' i j).
    { intros a b Ha Hb. unfold hadv_up. destruct per.
      - eapply padyz_ext with (c := n + 1); auto. lia.
      - apply padxy_ext; auto; lia. }
    assert (Evp : forall i j, i < m + 1 -> j < n ->
              hadv_vp m n per v i j = hadv_vp m n per v' i j).
    { intros a b Ha Hb. unfold hadv_vp. destruct per.
      - eapply padyz_ext with (c := n); auto. lia.
      - apply padxy_ext; auto; lia. }
    unfold hadv, hadv_us, hadv_vs.
    rewrite !Eup, !Evp, !Esp by lia. reflexivity.
  Qed.

  Lemma forwardtrack_cells m n (g : grid N) c F fz S1 S0 region msk out :
    2 <= m -> 2 <= n -> g_rows g = m ->
    shapedF F m n -> shaped fz m n -> shapedS S1 m n -> shapedS S0 m n ->
    bcast region m n msk -> shaped_fwd out m n ->
    exists out', forwardtrack g F fz S1 S0 region out c = OK out' /\
      shaped_fwd out' m n /\
      forall i j, i < m -> j < n ->
        let k := fw_corr m n g c F fz S1 S0 msk out i j in
        at_ (f_s_upper out') i j = c_u k /\
        at_ (f_s_lower out') i j = c_l k /\
        at_ (f_p_upper out') i j = add1 (at_ (f_p_upper out) i j)
            (mul1 (mul1 (fw_pu F S0 i j) (fw_ru S0 out i j)) (timestep c)) /\
        at_ (f_p_lower out') i j = add1 (at_ (f_p_lower out) i j)
            (mul1 (mul1 (fw_pl F S0 i j) (fw_rl S0 out i j)) (timestep c)) /\
        at_ (f_tagged out') i j = add1 (at_ (f_tagged out) i j)
            (nmul (nmul (msk i j) (at_ (evap F) i j)) (timestep c)) /\
        at_ (f_losses out') i j = add1 (at_ (f_losses out) i j) (c_loss k) /\
        at_ (f_gains out') i j = add1 (at_ (f_gains out) i j) (c_gain k).
  Proof.
    intros Hm Hn Hg HF [? ?] HS1 HS0 Hmsk Hout.
    pose proof HS1 as HS1'. unfold shapedF, shapedS, shaped_fwd, shaped in HF, HS1', HS0, Hout.
    repeat match goal with H : _ /\ _ |- _ => destruct H end.
    assert (Ha : is_arr (a_col g) m 1 (fun i _ => g_area g i))
      by (unfold a_col; rewrite Hg; apply is_arr_colvec).
    unfold forwardtrack. cbv zeta.
    eapply is_arr_bind; [eapply stagger_x_cells; [split; eassumption|lia|lia]|]. intros fxu ? ? Hfxu.
    eapply is_arr_bind; [eapply stagger_y_cells; [split; eassumption|lia|lia]|]. intros fyu ? ? Hfyu.
    eapply is_arr_bind; [eapply stagger_x_cells; [split; eassumption|lia|lia]|]. intros fxl ? ? Hfxl.
    eapply is_arr_bind; [eapply stagger_y_cells; [split; eassumption|lia|lia]|]. intros fyl ? ? Hfyl.
    eapply is_arr_bind with (r := m) (c := n); [arr_tac|]. intros pl ? ? Hpl.
    eapply is_arr_bind with (r := m) (c := n); [arr_tac|]. intros pu ? ? Hpu.
    eapply is_arr_bind with (r := m) (c := n); [arr_tac|]. intros rl ? ? Hrl.
    eapply is_arr_bind with (r := m) (c := n); [arr_tac|]. intros ru ? ? Hru.
    eapply is_arr_bind; [eapply hadv_cells with (m := m) (n := n); unfold shaped; auto|]. intros al ? ? Hal.
    eapply is_arr_bind with (r := m) (c := n).
    { arr_tac; first [eapply vertical_advection_cells | eapply vertical_dispersion_cells]; arr_tac. }
    intros tl ? ? Htl.
    eapply is_arr_bind; [eapply hadv_cells with (m := m) (n := n); unfold shaped; auto|]. intros au ? ? Hau.
    eapply is_arr_bind with (r := m) (c := n).
    { arr_tac; first [eapply vertical_advection_cells | eapply vertical_dispersion_cells]; arr_tac. }
    intros tu ? ? Htu.
    destruct (corrections_cells tu tl S1 (periodic c) m n)
      as (u' & l' & lo & ga & E & [? ?] & [? ?] & [? ?] & [? ?] & Hcorr);
      [split; auto | split; auto | auto |].
    rewrite E. cbn [bind].
    eapply is_arr_bind with (r := m) (c := n); [arr_tac|]. intros tg ? ? Htg.
    eapply is_arr_bind with (r := m) (c := n); [arr_tac|]. intros pl' ? ? Hpl'.
    eapply is_arr_bind with (r := m) (c := n); [arr_tac|]. intros pu' ? ? Hpu'.
    eapply is_arr_bind with (r := m) (c := n); [arr_tac|]. intros lo' ? ? Hlo'.
    eapply is_arr_bind with (r := m) (c := n); [arr_tac|]. intros ga' ? ? Hga'.
    eexists. split; [reflexivity|]. unfold shaped_fwd, shaped; cbn [f_s_upper f_s_lower f_p_upper f_p_lower f_tagged f_losses f_gains].
    split; [repeat split; auto|].
    intros i j Hi Hj.
    assert (Etl : at_ tl i j = fw_tl m n g c F fz S0 msk out i j).
    { rewrite Htl, Hal, Hpl, Hrl, Hru by lia. unfold fw_tl, fwd_lower.
      rewrite (hadv_ext m n (periodic c) (at_ rl) (fw_rl S0 out) (at_ fxl)
        (stagx n (periodic c) (at_ (fx_lower F))) (at_ fyl) (stagy (periodic c) (at_ (fy_lower F))))
        by auto. reflexivity. }
    assert (Etu : at_ tu i j = fw_tu m n g c F fz S0 out i j).
    { rewrite Htu, Hau, Hpu, Hrl, Hru by lia. unfold fw_tu, fwd_upper.
      rewrite (hadv_ext m n (periodic c) (at_ ru) (fw_ru S0 out) (at_ fxu)
        (stagx n (periodic c) (at_ (fx_upper F))) (at_ fyu) (stagy (periodic c) (at_ (fy_upper F))))
        by auto. reflexivity. }
    specialize (Hcorr i j Hi Hj). cbv zeta in Hcorr. rewrite Etl, Etu in Hcorr.
    destruct Hcorr as (E1 & E2 & E3 & E4). unfold fw_corr. cbv zeta.
    rewrite Htg, Hpl', Hpu', Hlo', Hga' by lia.
    rewrite Hpl, Hpu, Hrl, Hru by lia.
    repeat split; auto; congruence.
  Qed.

  Lemma backtrack_cells m n (g : grid N) c F fz S1 S0 region msk out :
    2 <= m -> 2 <= n -> g_rows g = m ->
    shapedF F m n -> shaped fz m n -> shapedS S1 m n -> shapedS S0 m n ->
    bcast region m n msk -> shaped_bwd out m n ->
    exists out', backtrack g F fz S1 S0 region out c = OK out' /\
      shaped_bwd out' m n /\
      forall i j, i < m -> j < n ->
        let k := bw_corr m n g c F fz S1 S0 msk out i j in
        at_ (b_s_upper out') i j = c_u k /\
        at_ (b_s_lower out') i j = c_l k /\
        at_ (b_e_track out') i j = add1 (at_ (b_e_track out) i j)
            (mul1 (mul1 (at_ (evap F) i j) (bw_rl S1 out i j)) (timestep c)) /\
        at_ (b_tagged out') i j = add1 (at_ (b_tagged out) i j)
            (nmul (nmul (msk i j) (at_ (precip F) i j)) (timestep c)) /\
        at_ (b_losses out') i j = add1 (at_ (b_losses out) i j) (c_loss k) /\
        at_ (b_gains out') i j = add1 (at_ (b_gains out) i j) (c_gain k).
  Proof.
    intros Hm Hn Hg HF [? ?] HS1 HS0 Hmsk Hout.
    pose proof HS0 as HS0'. unfold shapedF, shapedS, shaped_bwd, shaped in HF, HS0', HS1, Hout.
    repeat match goal with H : _ /\ _ |- _ => destruct H end.
    assert (Ha : is_arr (a_col g) m 1 (fun i _ => g_area g i))
      by (unfold a_col; rewrite Hg; apply is_arr_colvec).
    unfold backtrack. cbv zeta.
    eapply is_arr_bind; [eapply stagger_x_cells; [split; eassumption|lia|lia]|]. intros fxu ? ? Hfxu.
    eapply is_arr_bind; [eapply stagger_y_cells; [split; eassumption|lia|lia]|]. intros fyu ? ? Hfyu.
    eapply is_arr_bind; [eapply stagger_x_cells; [split; eassumption|lia|lia]|]. intros fxl ? ? Hfxl.
    eapply is_arr_bind; [eapply stagger_y_cells; [split; eassumption|lia|lia]|]. intros fyl ? ? Hfyl.
    eapply is_arr_bind with (r := m) (c := n); [arr_tac|]. intros rl ? ? Hrl.
    eapply is_arr_bind with (r := m) (c := n); [arr_tac|]. intros ru ? ? Hru.
    eapply is_arr_bind; [arr_tac|]. intros mxl ? ? Hmxl.
    eapply is_arr_bind; [arr_tac|]. intros myl ? ? Hmyl.
    eapply is_arr_bind; [eapply hadv_cells with (m := m) (n := n); unfold shaped; auto; split; congruence|]. intros al ? ? Hal.
    eapply is_arr_bind with (r := m) (c := n).
    { arr_tac; first [eapply vertical_advection_cells | eapply vertical_dispersion_cells]; arr_tac. }
    intros tl ? ? Htl.
    eapply is_arr_bind; [arr_tac|]. intros mxu ? ? Hmxu.
    eapply is_arr_bind; [arr_tac|]. intros myu ? ? Hmyu.
    eapply is_arr_bind; [eapply hadv_cells with (m := m) (n := n); unfold shaped; auto; split; congruence|]. intros au ? ? Hau.
    eapply is_arr_bind with (r := m) (c := n).
    { arr_tac; first [eapply vertical_advection_cells | eapply vertical_dispersion_cells]; arr_tac. }
    intros tu ? ? Htu.
    destruct (corrections_cells tu tl S0 (periodic c) m n)
      as (u' & l' & lo & ga & E & [? ?] & [? ?] & [? ?] & [? ?] & Hcorr);
      [split; auto | split; auto | auto |].
    rewrite E. cbn [bind].
    eapply is_arr_bind with (r := m) (c := n); [arr_tac|]. intros tg ? ? Htg.
    eapply is_arr_bind with (r := m) (c := n); [arr_tac|]. intros et ? ? Het.
    eapply is_arr_bind with (r := m) (c := n); [arr_tac|]. intros lo' ? ? Hlo'.
    eapply is_arr_bind with (r := m) (c := n); [arr_tac|]. intros ga' ? ? Hga'.
    eexists. split; [reflexivity|]. unfold shaped_bwd, shaped; cbn [b_s_upper b_s_lower b_e_track b_tagged b_losses b_gains].
    split; [repeat split; auto|].
    intros i j Hi Hj.
    assert (Etl : at_ tl i j = bw_tl m n g c F fz S1 msk out i j).
    { rewrite Htl, Hal, Hrl, Hru by lia. unfold bw_tl, bwd_lower.
      rewrite (hadv_ext m n (periodic c) (at_ rl) (bw_rl S1 out) (at_ mxl)
        (opp (stagx n (periodic c) (at_ (fx_lower F)))) (at_ myl)
        (opp (stagy (periodic c) (at_ (fy_lower F))))); auto; unfold opp.
      - intros. rewrite Hmxl by congruence. now rewrite Hfxl by congruence.
      - intros. rewrite Hmyl by congruence. now rewrite Hfyl by congruence. }
    assert (Etu : at_ tu i j = bw_tu m n g c F fz S1 msk out i j).
    { rewrite Htu, Hau, Hrl, Hru by lia. unfold bw_tu, bwd_upper.
      rewrite (hadv_ext m n (periodic c) (at_ ru) (bw_ru S1 out) (at_ mxu)
        (opp (stagx n (periodic c) (at_ (fx_upper F)))) (at_ myu)
        (opp (stagy (periodic c) (at_ (fy_upper F))))); auto; unfold opp.
      - intros. rewrite Hmxu by congruence. now rewrite Hfxu by congruence.
      - intros. rewrite Hmyu by congruence. now rewrite Hfyu by congruence. }
    specialize (Hcorr i j Hi Hj). cbv zeta in Hcorr. rewrite Etl, Etu in Hcorr.
    destruct Hcorr as (E1 & E2 & E3 & E4). unfold bw_corr. cbv zeta.
    rewrite Htg, Het, Hlo', Hga' by lia.
    rewrite Hrl by lia.
    repeat split; auto; congruence.
  Qed.
End Cells.
