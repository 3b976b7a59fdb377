(** * C21: healthy input gives finite numbers, equal to those of exact real arithmetic *)
From Coq Require Import Reals Lra Lia Arith Bool ZArith List.
From Verif Require Import Num Arr Core Track Cells Sums SpecTransport HAdv StepR AdvProps StepProps StepBounds Stabilize Fz.
Local Open Scope R_scope.

(** ** operations on finite values *)
Lemma fin_add a b : @nadd XRnum (Fin a) (Fin b) = Fin (@nadd Rnum a b). Proof. reflexivity. Qed.
Lemma fin_sub a b : @nsub XRnum (Fin a) (Fin b) = Fin (@nsub Rnum a b). Proof. reflexivity. Qed.
Lemma fin_mul a b : @nmul XRnum (Fin a) (Fin b) = Fin (@nmul Rnum a b). Proof. reflexivity. Qed.
Lemma fin_opp a : @nopp XRnum (Fin a) = Fin (@nopp Rnum a). Proof. reflexivity. Qed.
Lemma fin_abs a : @nabs XRnum (Fin a) = Fin (@nabs Rnum a). Proof. reflexivity. Qed.
Lemma fin_ofZ z : @nofZ XRnum z = Fin (@nofZ Rnum z). Proof. reflexivity. Qed.
Lemma fin_div a b : b <> 0 -> @ndiv XRnum (Fin a) (Fin b) = Fin (@ndiv Rnum a b).
Proof. intros H. cbn. destruct (Reqb_spec b 0); [contradiction|reflexivity]. Qed.
Lemma fin_le a b : @nle XRnum (Fin a) (Fin b) = @nle Rnum a b. Proof. reflexivity. Qed.
Lemma fin_eq a b : @neqb XRnum (Fin a) (Fin b) = @neqb Rnum a b. Proof. reflexivity. Qed.
Lemma fin_lt a b : @nlt XRnum (Fin a) (Fin b) = @nlt Rnum a b.
Proof.
  cbn. unfold xr_lt, xr_le, xr_eq. destruct (Rtotal_order a b) as [H|[H|H]];
  destruct (Rleb_spec a b), (Reqb_spec a b), (Rltb_spec a b); cbn; auto; exfalso; lra.
Qed.
Lemma fin_min a b : @nmin XRnum (Fin a) (Fin b) = Fin (@nmin Rnum a b).
Proof. unfold nmin, nisnan. rewrite fin_le, fin_eq. destruct (_ || _)%bool; reflexivity. Qed.
Lemma fin_max a b : @nmax XRnum (Fin a) (Fin b) = Fin (@nmax Rnum a b).
Proof. unfold nmax, nisnan. rewrite fin_le, fin_eq. destruct (_ || _)%bool; reflexivity. Qed.
Lemma fin_n0 : @n0 XRnum = Fin (@n0 Rnum). Proof. reflexivity. Qed.
Lemma fin_n1 : @n1 XRnum = Fin (@n1 Rnum). Proof. reflexivity. Qed.
Lemma fin_n2 : @n2 XRnum = Fin (@n2 Rnum). Proof. reflexivity. Qed.
Lemma fin_half : @nhalf XRnum = Fin (@nhalf Rnum).
Proof. unfold nhalf. rewrite fin_n1, fin_n2. apply fin_div. cbn. lra. Qed.
Lemma fin_sign a : @nsign XRnum (Fin a) = Fin (@nsign Rnum a).
Proof.
  unfold nsign. rewrite fin_n0, !fin_lt, fin_eq, fin_n1, fin_opp.
  destruct (nlt n0 _); auto. destruct (nlt _ n0); auto. destruct (neqb _ _); auto.
Qed.
Lemma fin_if (b : bool) x y : (if b then Fin x else Fin y) = Fin (if b then x else y).
Proof. now destruct b. Qed.
Lemma fin_store a : @nstore XRnum (Fin a) = Fin a. Proof. reflexivity. Qed.
Global Hint Rewrite fin_store fin_add fin_sub fin_mul fin_opp fin_abs fin_le fin_eq fin_lt fin_min fin_max fin_n0 fin_n1 fin_n2
  fin_half fin_sign fin_if : fin.
Ltac fin := autorewrite with fin.

(** ** cell functions *)
Lemma fin_stab (dt a fx fy s : R) : 0 < dt -> fx <> 0 \/ fy <> 0 ->
  @stab1 XRnum (Fin dt) (Fin a) (Fin fx) (Fin fy) (Fin s) = Fin (@stab1 Rnum dt a fx fy s) /\
  @stab2 XRnum (Fin dt) (Fin a) (Fin fx) (Fin fy) (Fin s) = Fin (@stab2 Rnum dt a fx fy s).
Proof.
  intros Hdt Hne.
  assert (Hp : @nadd Rnum (@nabs Rnum (@nmul Rnum fx dt)) (@nabs Rnum (@nmul Rnum fy dt)) <> 0).
  { cbn. pose proof (Rabs_pos (fx * dt)). pose proof (Rabs_pos (fy * dt)).
    destruct Hne as [H'|H'].
    - assert (0 < Rabs (fx * dt)) by (apply Rabs_pos_lt, Rmult_integral_contrapositive_currified; lra). lra.
    - assert (0 < Rabs (fy * dt)) by (apply Rabs_pos_lt, Rmult_integral_contrapositive_currified; lra). lra. }
  assert (Hd : dt <> 0) by lra.
  unfold stab1, stab2. fin. rewrite !fin_div by exact Hp. fin. rewrite !fin_div by exact Hd. auto.
Qed.
Lemma fin_mean2 (x y : R) : @mean2 XRnum (Fin x) (Fin y) = Fin (@mean2 Rnum x y).
Proof. unfold mean2. fin. rewrite fin_div by (cbn; lra). reflexivity. Qed.
Lemma fin_grad1 n (v : nat -> XR) (w : nat -> R) k : (2 <= n)%nat -> (k < n)%nat ->
  (forall i, (i < n)%nat -> v i = Fin (w i)) -> @grad1 XRnum n v k = Fin (@grad1 Rnum n w k).
Proof.
  intros Hn Hk H. unfold grad1. destruct (Nat.eqb_spec k 0); [now rewrite !H by lia; fin|].
  destruct (Nat.eqb_spec k (n - 1)); rewrite !H by lia; fin; auto. apply fin_div. cbn. lra.
Qed.
Lemma fin_fz_cell (a dt dvu dvl p e su0 sl0 su1 sl1 : R) :
  a <> 0 -> 0 < su0 -> 0 < sl0 -> 0 < su1 -> 0 < sl1 ->
  @fz_cell XRnum (Fin a) (Fin dt) (Fin dvu) (Fin dvl) (Fin p) (Fin e) (Fin su0) (Fin sl0) (Fin su1) (Fin sl1)
  = Fin (@fz_cell Rnum a dt dvu dvl p e su0 sl0 su1 sl1).
Proof.
  intros Ha H1 H2 H3 H4. unfold fz_cell. cbv zeta. rewrite !fin_mean2. fin.
  assert (Ht : @nadd Rnum (@mean2 Rnum su1 su0) (@mean2 Rnum sl1 sl0) <> 0) by (unfold mean2, n2; cbn; lra).
  assert (Hs : @nadd Rnum sl1 su1 <> 0) by (cbn; lra).
  rewrite !(fin_div _ _ Ht). fin. rewrite !(fin_div _ _ Ha), !(fin_div _ _ Hs). fin. reflexivity.
Qed.
Lemma fin_fz_lim (k dt fz smu sml : R) : 0 <= k -> dt <> 0 ->
  @fz_lim XRnum (Fin k) (Fin dt) (Fin fz) (Fin smu) (Fin sml) = Fin (@fz_lim Rnum k dt fz smu sml).
Proof.
  intros Hk Hd. unfold fz_lim. fin. rewrite fin_div by (cbn; lra). fin. rewrite (fin_div _ _ Hd). reflexivity.
Qed.
Lemma fin_rel (st s : R) : s <> 0 -> @rel XRnum (Fin st) (Fin s) = Fin (@rel Rnum st s).
Proof. intros H. unfold rel. rewrite (fin_div _ _ H). fin. reflexivity. Qed.
Lemma fin_frac (p s su sl : R) : 0 < su -> 0 < sl -> @frac XRnum (Fin p) (Fin s) (Fin su) (Fin sl) = Fin (@frac Rnum p s su sl).
Proof. intros. unfold frac. fin. rewrite fin_div by (cbn; lra). fin. reflexivity. Qed.
Lemma fin_wfrac (p s su sl : R) : 0 < su -> 0 < sl -> @wfrac XRnum (Fin p) (Fin s) (Fin su) (Fin sl) = Fin (@wfrac Rnum p s su sl).
Proof. intros. unfold wfrac. fin. rewrite fin_div by (cbn; lra). reflexivity. Qed.
Lemma fin_vadv (f a b : R) : @vadv XRnum (Fin f) (Fin a) (Fin b) = Fin (@vadv Rnum f a b).
Proof. unfold vadv. fin. reflexivity. Qed.
Lemma fin_vdisp (k f a b : R) : @vdisp XRnum (Fin k) (Fin f) (Fin a) (Fin b) = Fin (@vdisp Rnum k f a b).
Proof. unfold vdisp. fin. reflexivity. Qed.
Lemma fin_gain1 (x : R) : @gain1 XRnum (Fin x) = Fin (@gain1 Rnum x).
Proof. unfold gain1. fin. reflexivity. Qed.
Lemma fin_corr b (u l su sl : R) :
  let cx := @corr_cell XRnum b (Fin u) (Fin l) (Fin su) (Fin sl) in
  let cr := @corr_cell Rnum b u l su sl in
  c_u cx = Fin (c_u cr) /\ c_l cx = Fin (c_l cr) /\ c_loss cx = Fin (c_loss cr) /\ c_gain cx = Fin (c_gain cr).
Proof.
  cbv zeta. unfold corr_cell. cbn [c_u c_l c_loss c_gain].
  destruct b; fin; rewrite ?fin_gain1; fin; auto.
Qed.

(** ** advection *)
Section FinAdv.
  Variables (m n : nat) (per : bool).
  Hypotheses (Hm : (2 <= m)%nat) (Hn : (2 <= n)%nat).
  Notation lift f := (fun i j : nat => Fin (f i j)).
  Lemma fin_hadv (s u v : nat -> nat -> R) i j :
    @hadv XRnum m n per (lift s) (lift u) (lift v) i j = Fin (@hadv Rnum m n per s u v i j).
  Proof.
    assert (P1 : forall i j, @hadv_sp XRnum m n per (lift s) i j = Fin (@hadv_sp Rnum m n per s i j)).
    { intros. unfold hadv_sp, padyz, padxy, padxw. destruct per;
      repeat match goal with |- context [if ?b then _ else _] => destruct b end; reflexivity. }
    assert (P2 : forall i j, @hadv_up XRnum m n per (lift u) i j = Fin (@hadv_up Rnum m n per u i j)).
    { intros. unfold hadv_up, padyz, padxy. destruct per;
      repeat match goal with |- context [if ?b then _ else _] => destruct b end; reflexivity. }
    assert (P3 : forall i j, @hadv_vp XRnum m n per (lift v) i j = Fin (@hadv_vp Rnum m n per v i j)).
    { intros. unfold hadv_vp, padyz, padxy. destruct per;
      repeat match goal with |- context [if ?b then _ else _] => destruct b end; reflexivity. }
    unfold hadv, hadv_us, hadv_vs. cbv zeta. rewrite !P1, !P2, !P3. fin. reflexivity.
  Qed.
  Lemma fin_stagx (f : nat -> nat -> R) i j : @stagx XRnum n per (lift f) i j = Fin (@stagx Rnum n per f i j).
  Proof. unfold stagx. destruct per; [destruct (_ || _)%bool|]; now fin. Qed.
  Lemma fin_stagy (f : nat -> nat -> R) i j : @stagy XRnum per (lift f) i j = Fin (@stagy Rnum per f i j).
  Proof. unfold stagy. destruct per; now fin. Qed.
End FinAdv.

(** ** arrays: [a] holds the finite values of [b] *)
Definition fin_arr (m n : nat) (a : arr XRnum) (b : arr Rnum) : Prop :=
  shaped a m n /\ shaped b m n /\ forall i j, (i < m)%nat -> (j < n)%nat -> at_ a i j = Fin (at_ b i j).
Definition finS m n (A : states XRnum) (B : states Rnum) :=
  fin_arr m n (s_upper A) (s_upper B) /\ fin_arr m n (s_lower A) (s_lower B).
Definition finF m n (A : fluxes XRnum) (B : fluxes Rnum) :=
  fin_arr m n (fx_upper A) (fx_upper B) /\ fin_arr m n (fx_lower A) (fx_lower B) /\
  fin_arr m n (fy_upper A) (fy_upper B) /\ fin_arr m n (fy_lower A) (fy_lower B) /\
  fin_arr m n (evap A) (evap B) /\ fin_arr m n (precip A) (precip B).
Definition fin_grid m (A : grid XRnum) (B : grid Rnum) :=
  g_rows A = m /\ g_rows B = m /\ forall i, (i < m)%nat -> g_area A i = Fin (g_area B i) /\ 0 < g_area B i.
Definition fin_fwd m n (A : fwd_out XRnum) (B : fwd_out Rnum) :=
  fin_arr m n (f_s_upper A) (f_s_upper B) /\ fin_arr m n (f_s_lower A) (f_s_lower B) /\
  fin_arr m n (f_p_upper A) (f_p_upper B) /\ fin_arr m n (f_p_lower A) (f_p_lower B) /\
  fin_arr m n (f_tagged A) (f_tagged B) /\ fin_arr m n (f_losses A) (f_losses B) /\
  fin_arr m n (f_gains A) (f_gains B).
Definition fin_bwd m n (A : bwd_out XRnum) (B : bwd_out Rnum) :=
  fin_arr m n (b_s_upper A) (b_s_upper B) /\ fin_arr m n (b_s_lower A) (b_s_lower B) /\
  fin_arr m n (b_e_track A) (b_e_track B) /\ fin_arr m n (b_tagged A) (b_tagged B) /\
  fin_arr m n (b_losses A) (b_losses B) /\ fin_arr m n (b_gains A) (b_gains B).
(** no cell has two exactly zero flux components, in either layer *)
Definition no_calm_cell m n (F : fluxes Rnum) : Prop :=
  forall i j, (i < m)%nat -> (j < n)%nat ->
    (at_ (fx_upper F) i j <> 0 \/ at_ (fy_upper F) i j <> 0) /\
    (at_ (fx_lower F) i j <> 0 \/ at_ (fy_lower F) i j <> 0).
(** the tagging mask: an array of finite values or the scalar 0 *)
Definition fin_mask m n (ra : marr XRnum) (rb : marr Rnum) (k : nat -> nat -> R) : Prop :=
  bcast ra m n (fun i j => Fin (k i j)) /\ bcast rb m n k.

Lemma finS_shape m n A B : finS m n A B -> shapedS A m n /\ shapedS B m n.
Proof. intros ((? & ? & _) & (? & ? & _)). split; split; assumption. Qed.
Lemma finF_shape m n A B : finF m n A B -> shapedF A m n /\ shapedF B m n.
Proof. unfold finF, fin_arr, shapedF. intuition. Qed.
Lemma fin_fwd_shape m n A B : fin_fwd m n A B -> shaped_fwd A m n /\ shaped_fwd B m n.
Proof. unfold fin_fwd, fin_arr, shaped_fwd. intuition. Qed.
Lemma fin_bwd_shape m n A B : fin_bwd m n A B -> shaped_bwd A m n /\ shaped_bwd B m n.
Proof. unfold fin_bwd, fin_arr, shaped_bwd. intuition. Qed.

(** each part of a step *)
Lemma fin_stabilize m n gx g (dt : R) Fx F Sx S :
  fin_grid m gx g -> finF m n Fx F -> finS m n Sx S -> 0 < dt -> no_calm_cell m n F ->
  exists Gx cx G c, @stabilize_fluxes XRnum gx (Fin dt) Fx Sx = OK (Gx, cx) /\
    @stabilize_fluxes Rnum g dt F S = OK (G, c) /\ finF m n Gx G.
Proof.
  intros (Hgx & Hg & Ha) HF HS Hdt Hc.
  destruct (finF_shape _ _ _ _ HF) as [HFx' HF']. destruct (finS_shape _ _ _ _ HS) as [HSx' HS'].
  destruct (stabilize_fluxes_cells gx (Fin dt : XRnum) Fx Sx m n Hgx HFx' HSx')
    as (Gx & c1 & c2 & c3 & c4 & Ex & SGx & _ & _ & _ & _ & Eex & Epx & Hx).
  destruct (stabilize_fluxes_cells g (dt : Rnum) F S m n Hg HF' HS')
    as (G & d1 & d2 & d3 & d4 & E & SG & _ & _ & _ & _ & Ee & Ep & H).
  exists Gx, (cons (c1, c3) (cons (c2, c4) nil)), G, (cons (d1, d3) (cons (d2, d4) nil)).
  split; [exact Ex|]. split; [exact E|].
  destruct HF as ((_ & _ & F1) & (_ & _ & F2) & (_ & _ & F3) & (_ & _ & F4) & F5 & F6).
  destruct HS as ((_ & _ & S1) & (_ & _ & S2)).
  unfold finF, fin_arr. rewrite Eex, Epx, Ee, Ep.
  destruct SGx as (X1 & X2 & X3 & X4 & _). destruct SG as (Y1 & Y2 & Y3 & Y4 & _).
  assert (K : forall i j, (i < m)%nat -> (j < n)%nat ->
    at_ (fx_upper Gx) i j = Fin (at_ (fx_upper G) i j) /\ at_ (fy_upper Gx) i j = Fin (at_ (fy_upper G) i j) /\
    at_ (fx_lower Gx) i j = Fin (at_ (fx_lower G) i j) /\ at_ (fy_lower Gx) i j = Fin (at_ (fy_lower G) i j)).
  { intros i j Hi Hj. destruct (Hx i j Hi Hj) as (-> & -> & -> & -> & _). destruct (H i j Hi Hj) as (-> & -> & -> & -> & _).
    destruct (Ha i Hi) as [-> _]. rewrite F1, F2, F3, F4, S1, S2 by auto.
    destruct (Hc i j Hi Hj) as [C1 C2].
    destruct (fin_stab dt (g_area g i) _ _ (at_ (s_upper S) i j) Hdt C1) as [-> ->].
    destruct (fin_stab dt (g_area g i) _ _ (at_ (s_lower S) i j) Hdt C2) as [-> ->]. auto. }
  repeat split; try (apply X1 || apply X2 || apply X3 || apply X4 || apply Y1 || apply Y2 || apply Y3 || apply Y4);
  try (now apply K); try (apply F5 || apply F6).
Qed.

Lemma fin_calculate_fz m n gx g (dt kvf : R) Fx F S0x S0 S1x S1 :
  (2 <= m)%nat -> (2 <= n)%nat -> fin_grid m gx g -> finF m n Fx F -> finS m n S0x S0 -> finS m n S1x S1 ->
  0 < dt -> 0 <= kvf -> pos_states m n S0 -> pos_states m n S1 ->
  exists zx z, @calculate_fz XRnum gx Fx S0x S1x (Fin dt) (Fin kvf) = OK zx /\
    @calculate_fz Rnum g F S0 S1 dt kvf = OK z /\ fin_arr m n zx z.
Proof.
  intros Hm Hn (Hgx & Hg & Ha) HF HS0 HS1 Hdt Hk P0 P1.
  destruct (finF_shape _ _ _ _ HF) as [HFx' HF']. destruct (finS_shape _ _ _ _ HS0) as [HS0x' HS0'].
  destruct (finS_shape _ _ _ _ HS1) as [HS1x' HS1'].
  destruct (calculate_fz_cells gx Fx S0x S1x (Fin dt : XRnum) (Fin kvf : XRnum) m n) as (zx & Ex & Z1 & Z2 & Hx); auto.
  destruct (calculate_fz_cells g F S0 S1 (dt : Rnum) (kvf : Rnum) m n) as (z & E & Z3 & Z4 & H); auto.
  exists zx, z. split; [exact Ex|]. split; [exact E|]. split; [split; auto|]. split; [split; auto|].
  intros i j Hi Hj. rewrite Hx, H by auto. unfold fz_at, closure_at.
  destruct HF as ((_ & _ & F1) & (_ & _ & F2) & (_ & _ & F3) & (_ & _ & F4) & (_ & _ & F5) & (_ & _ & F6)).
  destruct HS0 as ((_ & _ & A1) & (_ & _ & A2)). destruct HS1 as ((_ & _ & B1) & (_ & _ & B2)).
  destruct (Ha i Hi) as [-> Ha0]. rewrite F5, F6, A1, A2, B1, B2 by auto.
  assert (D : forall fx fy fx' fy', (forall i j, (i < m)%nat -> (j < n)%nat -> fx i j = Fin (fx' i j)) ->
    (forall i j, (i < m)%nat -> (j < n)%nat -> fy i j = Fin (fy' i j)) ->
    @div_cell XRnum m n fx fy i j = Fin (@div_cell Rnum m n fx' fy' i j)).
  { intros fx fy fx' fy' Hfx Hfy. unfold div_cell.
    rewrite (fin_grad1 n (fx i) (fx' i)) by auto. rewrite (fin_grad1 m (fun k => fy k j) (fun k => fy' k j)) by auto. now fin. }
  rewrite !(D (at_ (fx_upper Fx)) (at_ (fy_upper Fx)) (at_ (fx_upper F)) (at_ (fy_upper F))) by auto.
  rewrite !(D (at_ (fx_lower Fx)) (at_ (fy_lower Fx)) (at_ (fx_lower F)) (at_ (fy_lower F))) by auto.
  destruct (P0 i j Hi Hj), (P1 i j Hi Hj).
  rewrite !fin_mean2, fin_fz_cell by (auto; rn; lra). rewrite fin_fz_lim by (rn; lra). reflexivity.
Qed.

Lemma fin_hadv_stag m n per (s fx fy : nat -> nat -> R) (sx fxx fyx : nat -> nat -> XR) i j :
  (2 <= m)%nat -> (2 <= n)%nat -> (i < m)%nat -> (j < n)%nat ->
  (forall i j, (i < m)%nat -> (j < n)%nat -> sx i j = Fin (s i j)) ->
  (forall i j, (i < m)%nat -> (j < n)%nat -> fxx i j = Fin (fx i j)) ->
  (forall i j, (i < m)%nat -> (j < n)%nat -> fyx i j = Fin (fy i j)) ->
  @hadv XRnum m n per sx (@stagx XRnum n per fxx) (@stagy XRnum per fyx) i j
    = Fin (@hadv Rnum m n per s (@stagx Rnum n per fx) (@stagy Rnum per fy) i j) /\
  @hadv XRnum m n per sx (@opp XRnum (@stagx XRnum n per fxx)) (@opp XRnum (@stagy XRnum per fyx)) i j
    = Fin (@hadv Rnum m n per s (@opp Rnum (@stagx Rnum n per fx)) (@opp Rnum (@stagy Rnum per fy)) i j).
Proof.
  intros Hm Hn Hi Hj Hs Hfx Hfy.
  assert (Gx : forall a b, (a < m - 2)%nat -> (b < if per then n + 1 else n - 1)%nat ->
     @stagx XRnum n per fxx a b = Fin (@stagx Rnum n per fx a b)).
  { intros a b Hra Hrb. rewrite <- fin_stagx. unfold stagx. destruct per.
    - destruct (Nat.eqb_spec b 0); [cbn [orb]; now rewrite !Hfx by lia|].
      destruct (Nat.eqb_spec b n); cbn [orb]; now rewrite !Hfx by lia.
    - now rewrite !Hfx by lia. }
  assert (Gy : forall a b, (a < m - 1)%nat -> (b < if per then n else n - 2)%nat ->
     @stagy XRnum per fyx a b = Fin (@stagy Rnum per fy a b)).
  { intros a b Hra Hrb. rewrite <- fin_stagy. unfold stagy. destruct per; now rewrite !Hfy by lia. }
  split; rewrite <- fin_hadv; apply hadv_ext; auto; unfold opp; intros; rewrite ?Gx, ?Gy by auto; reflexivity.
Qed.

Lemma fin_forwardtrack m n gx g (dt kv : R) per Fx F zx z S1x S1 S0x S0 rx r msk ox o :
  (2 <= m)%nat -> (2 <= n)%nat -> fin_grid m gx g -> finF m n Fx F -> fin_arr m n zx z ->
  finS m n S1x S1 -> finS m n S0x S0 -> fin_mask m n rx r msk -> fin_fwd m n ox o -> pos_states m n S0 ->
  exists ox' o', @forwardtrack XRnum gx Fx zx S1x S0x rx ox (mkstepcfg XRnum (Fin dt) (Fin kv) per) = OK ox' /\
    @forwardtrack Rnum g F z S1 S0 r o (mkstepcfg Rnum dt kv per) = OK o' /\ fin_fwd m n ox' o'.
Proof.
  intros Hm Hn (Hgx & Hg & Ha) HF (Hzx & Hz & Z) HS1 HS0 (Mx & M) HO P0.
  destruct (finF_shape _ _ _ _ HF) as [HFx' HF']. destruct (finS_shape _ _ _ _ HS0) as [HS0x' HS0'].
  destruct (finS_shape _ _ _ _ HS1) as [HS1x' HS1']. destruct (fin_fwd_shape _ _ _ _ HO) as [HOx' HO'].
  destruct (forwardtrack_cells m n gx (mkstepcfg XRnum (Fin dt) (Fin kv) per) Fx zx S1x S0x rx (fun i j => Fin (msk i j)) ox)
    as (ox' & Ex & Sx & Hx); auto.
  destruct (forwardtrack_cells m n g (mkstepcfg Rnum dt kv per) F z S1 S0 r msk o) as (o' & E & So & H); auto.
  exists ox', o'. split; [exact Ex|]. split; [exact E|].
  destruct HF as ((_ & _ & F1) & (_ & _ & F2) & (_ & _ & F3) & (_ & _ & F4) & (_ & _ & F5) & (_ & _ & F6)).
  destruct HS0 as ((_ & _ & A1) & (_ & _ & A2)). destruct HS1 as ((_ & _ & B1) & (_ & _ & B2)).
  destruct HO as ((_ & _ & O1) & (_ & _ & O2) & (_ & _ & O3) & (_ & _ & O4) & (_ & _ & O5) & (_ & _ & O6) & (_ & _ & O7)).
  assert (Erl : forall i j, (i < m)%nat -> (j < n)%nat -> fw_rl S0x ox i j = Fin (fw_rl S0 o i j)).
  { intros i j Hi Hj. unfold fw_rl. rewrite O2, A2 by auto. apply fin_rel. destruct (P0 i j Hi Hj). rn. lra. }
  assert (Eru : forall i j, (i < m)%nat -> (j < n)%nat -> fw_ru S0x ox i j = Fin (fw_ru S0 o i j)).
  { intros i j Hi Hj. unfold fw_ru. rewrite O1, A1 by auto. apply fin_rel. destruct (P0 i j Hi Hj). rn. lra. }
  assert (K : forall i j, (i < m)%nat -> (j < n)%nat ->
    fw_pl Fx S0x i j = Fin (fw_pl F S0 i j) /\ fw_pu Fx S0x i j = Fin (fw_pu F S0 i j) /\
    let cx := fw_corr m n gx (mkstepcfg XRnum (Fin dt) (Fin kv) per) Fx zx S1x S0x (fun i j => Fin (msk i j)) ox i j in
    let c := fw_corr m n g (mkstepcfg Rnum dt kv per) F z S1 S0 msk o i j in
    c_u cx = Fin (c_u c) /\ c_l cx = Fin (c_l c) /\ c_loss cx = Fin (c_loss c) /\ c_gain cx = Fin (c_gain c)).
  { intros i j Hi Hj. destruct (P0 i j Hi Hj) as [Pu Pl].
    assert (Epl : fw_pl Fx S0x i j = Fin (fw_pl F S0 i j)).
    { unfold fw_pl. rewrite F6, A1, A2 by auto. now apply fin_frac. }
    assert (Epu : fw_pu Fx S0x i j = Fin (fw_pu F S0 i j)).
    { unfold fw_pu. rewrite F6, A1, A2 by auto. now apply fin_frac. }
    split; [exact Epl|]. split; [exact Epu|]. cbv zeta.
    assert (Etl : fw_tl m n gx (mkstepcfg XRnum (Fin dt) (Fin kv) per) Fx zx S0x (fun i j => Fin (msk i j)) ox i j
       = Fin (fw_tl m n g (mkstepcfg Rnum dt kv per) F z S0 msk o i j)).
    { unfold fw_tl, fwd_lower. cbn [periodic timestep kvf].
      destruct (fin_hadv_stag m n per (fw_rl S0 o) (at_ (fx_lower F)) (at_ (fy_lower F)) (fw_rl S0x ox) (at_ (fx_lower Fx)) (at_ (fy_lower Fx)) i j) as [-> _]; auto.
      destruct (Ha i Hi) as [-> Ha0].
      rewrite Epl, Erl, Eru, Z, F5, O2 by auto. rewrite fin_div by (rn; lra). rewrite fin_vadv, fin_vdisp. fin. reflexivity. }
    assert (Etu : fw_tu m n gx (mkstepcfg XRnum (Fin dt) (Fin kv) per) Fx zx S0x ox i j
       = Fin (fw_tu m n g (mkstepcfg Rnum dt kv per) F z S0 o i j)).
    { unfold fw_tu, fwd_upper. cbn [periodic timestep kvf].
      destruct (fin_hadv_stag m n per (fw_ru S0 o) (at_ (fx_upper F)) (at_ (fy_upper F)) (fw_ru S0x ox) (at_ (fx_upper Fx)) (at_ (fy_upper Fx)) i j) as [-> _]; auto.
      destruct (Ha i Hi) as [-> Ha0].
      rewrite Epu, Erl, Eru, Z, O1 by auto. rewrite fin_div by (rn; lra). rewrite fin_vadv, fin_vdisp. fin. reflexivity. }
    unfold fw_corr. rewrite Etl, Etu, B1, B2 by auto. apply fin_corr. }
  destruct Sx as (X1 & X2 & X3 & X4 & X5 & X6 & X7). destruct So as (Y1 & Y2 & Y3 & Y4 & Y5 & Y6 & Y7).
  unfold fin_fwd, fin_arr.
  repeat match goal with |- _ /\ _ => split end; try assumption; intros i j Hi Hj;
  destruct (Hx i j Hi Hj) as (U1 & U2 & U3 & U4 & U5 & U6 & U7); destruct (H i j Hi Hj) as (V1 & V2 & V3 & V4 & V5 & V6 & V7);
  destruct (K i j Hi Hj) as (K1 & K2 & K3 & K4 & K5 & K6); cbv zeta in *; cbn [timestep] in *;
  [rewrite U1, V1 | rewrite U2, V2 | rewrite U3, V3 | rewrite U4, V4 | rewrite U5, V5 | rewrite U6, V6 | rewrite U7, V7];
  rewrite ?K1, ?K2, ?Erl, ?Eru, ?O3, ?O4, ?O5, ?O6, ?O7, ?F5 by auto; fin; auto.
  - rewrite K5. reflexivity.
  - rewrite K6. reflexivity.
Qed.

Lemma fin_backtrack m n gx g (dt kv : R) per Fx F zx z S1x S1 S0x S0 rx r msk ox o :
  (2 <= m)%nat -> (2 <= n)%nat -> fin_grid m gx g -> finF m n Fx F -> fin_arr m n zx z ->
  finS m n S1x S1 -> finS m n S0x S0 -> fin_mask m n rx r msk -> fin_bwd m n ox o -> pos_states m n S1 ->
  exists ox' o', @backtrack XRnum gx Fx zx S1x S0x rx ox (mkstepcfg XRnum (Fin dt) (Fin kv) per) = OK ox' /\
    @backtrack Rnum g F z S1 S0 r o (mkstepcfg Rnum dt kv per) = OK o' /\ fin_bwd m n ox' o'.
Proof.
  intros Hm Hn (Hgx & Hg & Ha) HF (Hzx & Hz & Z) HS1 HS0 (Mx & M) HO P1.
  destruct (finF_shape _ _ _ _ HF) as [HFx' HF']. destruct (finS_shape _ _ _ _ HS0) as [HS0x' HS0'].
  destruct (finS_shape _ _ _ _ HS1) as [HS1x' HS1']. destruct (fin_bwd_shape _ _ _ _ HO) as [HOx' HO'].
  destruct (backtrack_cells m n gx (mkstepcfg XRnum (Fin dt) (Fin kv) per) Fx zx S1x S0x rx (fun i j => Fin (msk i j)) ox)
    as (ox' & Ex & Sx & Hx); auto.
  destruct (backtrack_cells m n g (mkstepcfg Rnum dt kv per) F z S1 S0 r msk o) as (o' & E & So & H); auto.
  exists ox', o'. split; [exact Ex|]. split; [exact E|].
  destruct HF as ((_ & _ & F1) & (_ & _ & F2) & (_ & _ & F3) & (_ & _ & F4) & (_ & _ & F5) & (_ & _ & F6)).
  destruct HS0 as ((_ & _ & A1) & (_ & _ & A2)). destruct HS1 as ((_ & _ & B1) & (_ & _ & B2)).
  destruct HO as ((_ & _ & O1) & (_ & _ & O2) & (_ & _ & O3) & (_ & _ & O4) & (_ & _ & O5) & (_ & _ & O6)).
  assert (Erl : forall i j, (i < m)%nat -> (j < n)%nat -> bw_rl S1x ox i j = Fin (bw_rl S1 o i j)).
  { intros i j Hi Hj. unfold bw_rl. rewrite O2, B2 by auto. apply fin_rel. destruct (P1 i j Hi Hj). rn. lra. }
  assert (Eru : forall i j, (i < m)%nat -> (j < n)%nat -> bw_ru S1x ox i j = Fin (bw_ru S1 o i j)).
  { intros i j Hi Hj. unfold bw_ru. rewrite O1, B1 by auto. apply fin_rel. destruct (P1 i j Hi Hj). rn. lra. }
  assert (K : forall i j, (i < m)%nat -> (j < n)%nat ->
    let cx := bw_corr m n gx (mkstepcfg XRnum (Fin dt) (Fin kv) per) Fx zx S1x S0x (fun i j => Fin (msk i j)) ox i j in
    let c := bw_corr m n g (mkstepcfg Rnum dt kv per) F z S1 S0 msk o i j in
    c_u cx = Fin (c_u c) /\ c_l cx = Fin (c_l c) /\ c_loss cx = Fin (c_loss c) /\ c_gain cx = Fin (c_gain c)).
  { intros i j Hi Hj. destruct (P1 i j Hi Hj) as [Pu Pl].
    assert (Epl : bw_pl Fx S1x (fun i j => Fin (msk i j)) i j = Fin (bw_pl F S1 msk i j)).
    { unfold bw_pl. rewrite F6, B1, B2 by auto. rewrite fin_mul. now apply fin_wfrac. }
    assert (Epu : bw_pu Fx S1x (fun i j => Fin (msk i j)) i j = Fin (bw_pu F S1 msk i j)).
    { unfold bw_pu. rewrite F6, B1, B2 by auto. rewrite fin_mul. now apply fin_wfrac. }
    cbv zeta.
    assert (Etl : bw_tl m n gx (mkstepcfg XRnum (Fin dt) (Fin kv) per) Fx zx S1x (fun i j => Fin (msk i j)) ox i j
       = Fin (bw_tl m n g (mkstepcfg Rnum dt kv per) F z S1 msk o i j)).
    { unfold bw_tl, bwd_lower. cbn [periodic timestep kvf].
      destruct (fin_hadv_stag m n per (bw_rl S1 o) (at_ (fx_lower F)) (at_ (fy_lower F)) (bw_rl S1x ox) (at_ (fx_lower Fx)) (at_ (fy_lower Fx)) i j) as [_ ->]; auto.
      destruct (Ha i Hi) as [-> Ha0].
      rewrite Epl, Erl, Eru, Z, F5, O2 by auto. rewrite fin_opp, fin_div by (rn; lra). rewrite fin_vadv, fin_vdisp. fin. reflexivity. }
    assert (Etu : bw_tu m n gx (mkstepcfg XRnum (Fin dt) (Fin kv) per) Fx zx S1x (fun i j => Fin (msk i j)) ox i j
       = Fin (bw_tu m n g (mkstepcfg Rnum dt kv per) F z S1 msk o i j)).
    { unfold bw_tu, bwd_upper. cbn [periodic timestep kvf].
      destruct (fin_hadv_stag m n per (bw_ru S1 o) (at_ (fx_upper F)) (at_ (fy_upper F)) (bw_ru S1x ox) (at_ (fx_upper Fx)) (at_ (fy_upper Fx)) i j) as [_ ->]; auto.
      destruct (Ha i Hi) as [-> Ha0].
      rewrite Epu, Erl, Eru, Z, O1 by auto. rewrite fin_opp, fin_div by (rn; lra). rewrite fin_vadv, fin_vdisp. fin. reflexivity. }
    unfold bw_corr. rewrite Etl, Etu, A1, A2 by auto. apply fin_corr. }
  destruct Sx as (X1 & X2 & X3 & X4 & X5 & X6). destruct So as (Y1 & Y2 & Y3 & Y4 & Y5 & Y6).
  unfold fin_bwd, fin_arr.
  repeat match goal with |- _ /\ _ => split end; try assumption; intros i j Hi Hj;
  destruct (Hx i j Hi Hj) as (U1 & U2 & U3 & U4 & U5 & U6); destruct (H i j Hi Hj) as (V1 & V2 & V3 & V4 & V5 & V6);
  destruct (K i j Hi Hj) as (K3 & K4 & K5 & K6); cbv zeta in *; cbn [timestep] in *;
  [rewrite U1, V1 | rewrite U2, V2 | rewrite U3, V3 | rewrite U4, V4 | rewrite U5, V5 | rewrite U6, V6];
  rewrite ?Erl, ?Eru, ?O3, ?O4, ?O5, ?O6, ?F5, ?F6 by auto; fin; auto.
  - rewrite K5. reflexivity.
  - rewrite K6. reflexivity.
Qed.

(** C21.  With finite input, positive layer storages and areas, positive timestep,
    kvf >= 0 and no cell with two exactly zero flux components, the whole computation of
    one step (stability correction, vertical flux, tracking) performed in arithmetic with
    NaN and infinities raises no error and gives, in every cell of every field, the finite
    number that exact real arithmetic gives.  ([fin_arr] ... say that an array holds the
    finite values of a real array.) *)
Theorem C21_forward_step_finite m n gx g (dt kv : R) per Fx F S0x S0 S1x S1 rx r msk ox o :
  (2 <= m)%nat -> (2 <= n)%nat -> 0 < dt -> 0 <= kv ->
  fin_grid m gx g -> finF m n Fx F -> finS m n S0x S0 -> finS m n S1x S1 ->
  fin_mask m n rx r msk -> fin_fwd m n ox o ->
  pos_states m n S0 -> pos_states m n S1 -> no_calm_cell m n F ->
  exists Gx cx zx ox' G c z o',
    @stabilize_fluxes XRnum gx (Fin dt) Fx S0x = OK (Gx, cx) /\
    @calculate_fz XRnum gx Gx S0x S1x (Fin dt) (Fin kv) = OK zx /\
    @forwardtrack XRnum gx Gx zx S1x S0x rx ox (mkstepcfg XRnum (Fin dt) (Fin kv) per) = OK ox' /\
    @stabilize_fluxes Rnum g dt F S0 = OK (G, c) /\
    @calculate_fz Rnum g G S0 S1 dt kv = OK z /\
    @forwardtrack Rnum g G z S1 S0 r o (mkstepcfg Rnum dt kv per) = OK o' /\
    finF m n Gx G /\ fin_arr m n zx z /\ fin_fwd m n ox' o'.
Proof.
  intros Hm Hn Hdt Hkv Hg HF HS0 HS1 HM HO P0 P1 Hc.
  destruct (fin_stabilize m n gx g dt Fx F S0x S0) as (Gx & cx & G & c & E1 & E1' & HG); auto.
  destruct (fin_calculate_fz m n gx g dt kv Gx G S0x S0 S1x S1) as (zx & z & E2 & E2' & HZ); auto.
  destruct (fin_forwardtrack m n gx g dt kv per Gx G zx z S1x S1 S0x S0 rx r msk ox o) as (ox' & o' & E3 & E3' & HO'); auto.
  exists Gx, cx, zx, ox', G, c, z, o'. repeat (split; [assumption|]). assumption.
Qed.

Theorem C21_backward_step_finite m n gx g (dt kv : R) per Fx F S0x S0 S1x S1 rx r msk ox o :
  (2 <= m)%nat -> (2 <= n)%nat -> 0 < dt -> 0 <= kv ->
  fin_grid m gx g -> finF m n Fx F -> finS m n S0x S0 -> finS m n S1x S1 ->
  fin_mask m n rx r msk -> fin_bwd m n ox o ->
  pos_states m n S0 -> pos_states m n S1 -> no_calm_cell m n F ->
  exists Gx cx zx ox' G c z o',
    @stabilize_fluxes XRnum gx (Fin dt) Fx S1x = OK (Gx, cx) /\
    @calculate_fz XRnum gx Gx S0x S1x (Fin dt) (Fin kv) = OK zx /\
    @backtrack XRnum gx Gx zx S1x S0x rx ox (mkstepcfg XRnum (Fin dt) (Fin kv) per) = OK ox' /\
    @stabilize_fluxes Rnum g dt F S1 = OK (G, c) /\
    @calculate_fz Rnum g G S0 S1 dt kv = OK z /\
    @backtrack Rnum g G z S1 S0 r o (mkstepcfg Rnum dt kv per) = OK o' /\
    finF m n Gx G /\ fin_arr m n zx z /\ fin_bwd m n ox' o'.
Proof.
  intros Hm Hn Hdt Hkv Hg HF HS0 HS1 HM HO P0 P1 Hc.
  destruct (fin_stabilize m n gx g dt Fx F S1x S1) as (Gx & cx & G & c & E1 & E1' & HG); auto.
  destruct (fin_calculate_fz m n gx g dt kv Gx G S0x S0 S1x S1) as (zx & z & E2 & E2' & HZ); auto.
  destruct (fin_backtrack m n gx g dt kv per Gx G zx z S1x S1 S0x S0 rx r msk ox o) as (ox' & o' & E3 & E3' & HO'); auto.
  exists Gx, cx, zx, ox', G, c, z, o'. repeat (split; [assumption|]). assumption.
Qed.

(** non-vacuity: a uniform 3x3 case meets all hypotheses, with a tagged region *)
Definition xcst (x : R) : arr XRnum := mkarr (T := XR) 3 3 (fun _ _ => Fin x).
Definition xunit_grid : grid XRnum := mkgrid XRnum 3 (fun _ => Fin 1) (Fin 1) (fun _ => Fin 1).
Example C21_witness :
  let F := mkfluxes Rnum (cst 1) (cst 2) (cst (-1)) (cst 0) (cst 1) (cst 1) in
  let Fx := mkfluxes XRnum (xcst 1) (xcst 2) (xcst (-1)) (xcst 0) (xcst 1) (xcst 1) in
  let S := mkstates Rnum (cst 2) (cst 3) in
  let Sx := mkstates XRnum (xcst 2) (xcst 3) in
  fin_grid 3 xunit_grid unit_grid /\ finF 3 3 Fx F /\ finS 3 3 Sx S /\
  fin_mask 3 3 (OK (xcst 1)) (OK (cst 1)) (fun _ _ => 1) /\
  fin_fwd 3 3 (mkfwd XRnum (xcst 1) (xcst 1) (xcst 0) (xcst 0) (xcst 0) (xcst 0) (xcst 0))
              (mkfwd Rnum (cst 1) (cst 1) (cst 0) (cst 0) (cst 0) (cst 0) (cst 0)) /\
  pos_states 3 3 S /\ no_calm_cell 3 3 F.
Proof.
  cbv zeta. split; [repeat split; cbn; intros; lra|].
  split; [repeat split|]. split; [repeat split|].
  split; [split; left; eexists; repeat split|]. split; [repeat split|].
  split; [repeat split; cbn; lra|]. intros i j _ _. cbn. split; left; lra.
Qed.
