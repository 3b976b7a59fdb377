(** * C49: layer thicknesses; C68: layer contents are integrals; C69: bounds *)
From Coq Require Import Reals Lra Lia Arith ZArith List Bool Sorted Permutation Psatz.
From Verif Require Import Num Arr Interp Levels LayersR Extend.
Import ListNotations.
Local Open Scope R_scope.
Local Open Scope list_scope.

(** ** Slabs are pairs of neighbouring levels *)
Definition consec {A} (l : list A) : list (A * A) := combine l (tl l).
Definition slab_of (ab : row * row) : slab Rnum :=
  let (a, b) := ab in @mkslab Rnum (r_p b - r_p a) (Some (mid (r_p a) (r_p b), mid (r_q a) (r_q b), mid (r_u a) (r_u b), mid (r_v a) (r_v b))).
Lemma slabs_rows n c : wf n c -> slabs (c_p c) (c_q c) (c_u c) (c_v c) = map slab_of (consec (rows c)).
Proof.
  destruct c as [p u v q]. unfold wf, rows. cbn [c_p c_q c_u c_v]. revert n q u v. induction p as [|p0 p IH]; intros n q u v (L1 & L2 & L3 & L4).
  { destruct q, u, v; reflexivity. }
  destruct q as [|q0 q]; [cbn in *; lia|]. destruct u as [|u0 u]; [cbn in *; lia|]. destruct v as [|v0 v]; [cbn in *; lia|].
  destruct p as [|p1 p].
  { destruct q, u, v; cbn in *; try lia; reflexivity. }
  destruct q as [|q1 q]; [cbn in *; lia|]. destruct u as [|u1 u]; [cbn in *; lia|]. destruct v as [|v1 v]; [cbn in *; lia|].
  change (slabs (p0 :: p1 :: p) (q0 :: q1 :: q) (u0 :: u1 :: u) (v0 :: v1 :: v))
    with (@mkslab Rnum (p1 - p0) (Some (mid p0 p1, mid q0 q1, mid u0 u1, mid v0 v1)) :: slabs (p1 :: p) (q1 :: q) (u1 :: u) (v1 :: v)).
  rewrite (IH (n - 1)%nat) by (cbn in *; lia). reflexivity.
Qed.
Lemma midpoints_ok n c : wf n c -> ascending (c_p c) -> interp_dp_midpoints c = OK (map slab_of (consec (rows c))).
Proof.
  intros W A. unfold interp_dp_midpoints. rewrite (proj2 (ndiffs_ascending (c_p c)) A). now rewrite (slabs_rows n).
Qed.
Lemma consec_cons {A} (a b : A) l : consec (a :: b :: l) = (a, b) :: consec (b :: l).
Proof. reflexivity. Qed.
Lemma consec_in {A} (l : list A) a b : In (a, b) (consec l) -> In a l /\ In b l.
Proof. unfold consec. intros H. split; [now apply in_combine_l in H|]. apply in_combine_r in H. destruct l; [contradiction|now right]. Qed.
Lemma asc_map_cons {A} (key : A -> R) a l : ascending (map key (a :: l)) -> ascending (map key l).
Proof. apply ascending_cons. Qed.
Lemma asc_head {A} (key : A -> R) a l b : ascending (map key (a :: l)) -> In b (a :: l) -> key a <= key b.
Proof.
  intros As H. apply (in_map key) in H. pose proof (asc_bounds _ _ As H) as B. cbn [map hd] in B. lra.
Qed.
(** neighbours in the sorted list: nothing lies strictly between them *)
Lemma consec_sorted {A} (key : A -> R) l a b : ascending (map key l) -> In (a, b) (consec l) ->
  key a <= key b /\ forall c, In c l -> key c <= key a \/ key b <= key c.
Proof.
  induction l as [|x [|y l] IH]; intros As H; [contradiction|cbn in H; contradiction|]. rewrite consec_cons in H.
  assert (As' := asc_map_cons key x (y :: l) As). destruct H as [[= <- <-]|H].
  - split; [apply (asc_head key x (y :: l)); cbn; auto|]. intros c [->|Hc]; [left; lra|]. right. now apply (asc_head key y l).
  - destruct (IH As' H) as [H1 H2]. split; [exact H1|]. intros c [<-|Hc]; [|now apply H2]. left. apply consec_in in H. apply (asc_head key x (y :: l) a As). right. apply H.
Qed.

(** ** Telescoping up to a cut *)
(** [t] separates the midpoints below c from those above *)
Definition cut {A} (key : A -> R) (l : list A) (t c : R) : Prop :=
  forall a b, In (a, b) (consec l) -> (key b <= c -> key a = key b \/ mid (key a) (key b) < t) /\ (c <= key a -> key a = key b \/ t <= mid (key a) (key b)).
Lemma sum_telescope {A} (key : A -> R) (l : list A) (t c : R) (F : A * A -> R) (G : R -> R) :
  ascending (map key l) -> In c (map key l) -> cut key l t c ->
  (forall a b, In (a, b) (consec l) -> F (a, b) = G (key b) - G (key a)) ->
  sum_over (consec l) (fun ab => Rltb (mid (key (fst ab)) (key (snd ab))) t) F = G c - G (hd 0 (map key l)).
Proof.
  intros As Hc Hcut HF. induction l as [|x l IH]; [contradiction|].
  destruct l as [|y l].
  { cbn in Hc. destruct Hc as [<-|[]]. unfold consec, sum_over, total. cbn. ring. }
  rewrite consec_cons, sum_cons. cbn [fst snd map hd].
  assert (As' := asc_map_cons key x (y :: l) As).
  assert (Hcut' : cut key (y :: l) t c) by (intros a b H; apply Hcut; rewrite consec_cons; now right).
  assert (HF' : forall a b, In (a, b) (consec (y :: l)) -> F (a, b) = G (key b) - G (key a)) by (intros a b H; apply HF; rewrite consec_cons; now right).
  destruct (Hcut x y ltac:(rewrite consec_cons; now left)) as [C1 C2]. specialize (HF x y ltac:(rewrite consec_cons; now left)).
  assert (Hxy : key x <= key y) by (apply (asc_head key x (y :: l)); cbn; auto).
  destruct (in_dec Req_EM_T c (map key (y :: l))) as [Hin|Hout].
  - specialize (IH As' Hin Hcut' HF'). cbn [map hd] in IH. rewrite IH.
    assert (Hyc : key y <= c). { pose proof (asc_bounds _ _ As' Hin) as B. cbn [map hd] in B. lra. }
    destruct (Rltb_spec (mid (key x) (key y)) t) as [Hm|Hm]; [lra|]. destruct (C1 Hyc) as [Heq|]; [|lra]. rewrite Heq. lra.
  - destruct Hc as [Hc|Hc]; [|exfalso; exact (Hout Hc)]. clear IH. rewrite Hc in *.
    assert (Z : forall l, ascending (map key l) -> cut key l t c -> (forall a b, In (a, b) (consec l) -> F (a, b) = G (key b) - G (key a)) ->
       (forall z, In z l -> c <= key z) -> sum_over (consec l) (fun ab => Rltb (mid (key (fst ab)) (key (snd ab))) t) F = 0).
    { clear. induction l as [|x [|y l] IH]; intros As Hcut HF Hge; try reflexivity. rewrite consec_cons, sum_cons. cbn [fst snd].
      rewrite IH; [|now apply (asc_map_cons key x)|intros a b H; apply Hcut; rewrite consec_cons; now right|intros a b H; apply HF; rewrite consec_cons; now right|intros z Hz; apply Hge; now right].
      specialize (HF x y ltac:(rewrite consec_cons; now left)). destruct (Hcut x y ltac:(rewrite consec_cons; now left)) as [_ C2]. specialize (C2 (Hge x ltac:(now left))).
      destruct (Rltb_spec (mid (key x) (key y)) t) as [Hm|Hm]; [|lra]. destruct C2 as [Heq|]; [|lra]. rewrite HF, Heq. ring. }
    rewrite Z; auto.
    + destruct (Rltb_spec (mid c (key y)) t) as [Hm|Hm]; [|ring]. destruct C2 as [Heq|]; [lra| |lra]. rewrite HF, <- Heq. ring.
    + intros z Hz. rewrite <- Hc. apply (asc_head key x (y :: l) z As). now right.
Qed.
(** floating point coordinates: the cut is at the level itself *)
Lemma cut_self {A} (key : A -> R) l c : ascending (map key l) -> cut key l c c.
Proof.
  intros As a b H. destruct (consec_sorted key l a b As H) as [Hab _]. unfold mid. split; intros; destruct (Req_dec (key a) (key b)); auto; right; lra.
Qed.

(** ** The layers of an extended column *)
Section Column.
Variables (t : dtype) (argsort : list R -> list nat) (factor offset : R) (n : nat) (c : column) (s : surface) (c' : column) (pb : R).
Hypothesis HS : sorts argsort.
Hypothesis W : wf n c.
Hypothesis Hp : Forall (fun p => 0 <= p) (c_p c).
Hypothesis Hps : 0 < cast t (s_ps s).
Hypothesis E : extend_pressurelevels t argsort factor offset c s = OK (c', pb).
Let air := mask_below_surface_data (s_ps s) (map slab_of (consec (rows c'))).
Definition unmasked (sl : slab Rnum) : bool := match sl_vals sl with Some _ => true | None => false end.
Lemma column_facts : wf (S (S (S n))) c' /\ ascending (map r_p (rows c')) /\ hd 0 (map r_p (rows c')) = 0 /\ 0 <= pb /\
  In (cast t (s_ps s)) (map r_p (rows c')) /\ In (cast t pb) (map r_p (rows c')) /\
  (forall x, In x (map r_p (rows c')) -> x = cast t pb \/ x = cast t (s_ps s) \/ x = 0 \/ In x (c_p c)).
Proof.
  destruct (C49_extended_levels t argsort factor offset n c s c' pb HS W Hp Hps E) as (Epb & Wc & As & Hd & Hb & k & ub & vb & qb & _ & _ & P & _).
  rewrite (rows_p _ _ Wc). split; [exact Wc|]. split; [exact As|]. split; [exact Hd|]. split; [exact Hb|].
  apply (Permutation_map r_p) in P. rewrite (rows_p _ _ Wc) in P. cbn [map r_p fst] in P. fold r_p in P.
  assert (Q : forall x, In x (c_p c') <-> In x (cast t pb :: cast t (s_ps s) :: 0 :: map r_p (rows c))).
  { intros x. split; [apply (Permutation_in _ P)|apply (Permutation_in _ (Permutation_sym P))]. }
  rewrite (rows_p _ _ W) in Q. split; [apply Q; cbn; auto|]. split; [apply Q; cbn; auto|]. intros x Hx. apply Q in Hx. cbn in Hx. intuition auto.
Qed.
Lemma air_sum cond (f : slab Rnum -> R) : (forall sl, unmasked sl = false -> cond sl = false \/ f sl = 0) ->
  sum_over air cond f = sum_over (consec (rows c')) (fun ab => Rltb (mid (r_p (fst ab)) (r_p (snd ab))) (s_ps s) && cond (slab_of ab)) (fun ab => f (slab_of ab)).
Proof.
  intros H. unfold air, mask_below_surface_data. rewrite map_map, sum_map. induction (consec (rows c')) as [|[a b] l IH]; [reflexivity|].
  rewrite !sum_cons, IH. f_equal. cbn [slab_of sl_vals fst snd]. cbn [nlt Rnum]. destruct (Rltb _ _); cbn [andb]; [reflexivity|].
  match goal with |- (if cond ?m then _ else _) = _ => destruct (H m eq_refl) as [-> | ->] end; [reflexivity|]. now destruct (cond _).
Qed.
Hypothesis Hbs : pb <= s_ps s.
(** sums over all air above the ground, and over the upper layer *)
Lemma air_above (f : slab Rnum -> R) (G : R -> R) cs :
  In cs (map r_p (rows c')) -> cut r_p (rows c') (s_ps s) cs ->
  (forall a b, In (a, b) (consec (rows c')) -> f (slab_of (a, b)) = G (r_p b) - G (r_p a)) -> sum_over air unmasked f = G cs - G 0.
Proof.
  intros Hin Hcut Hf. destruct column_facts as (_ & As & Hd & _). rewrite air_sum by (intros sl ->; auto).
  rewrite <- Hd. rewrite <- (sum_telescope r_p (rows c') (s_ps s) cs (fun ab => f (slab_of ab)) G As Hin Hcut Hf).
  apply sum_cond_ext. intros [a b] _. left. cbn. apply andb_true_r.
Qed.
Lemma air_upper (f : slab Rnum -> R) (G : R -> R) cb :
  In cb (map r_p (rows c')) -> cut r_p (rows c') pb cb ->
  (forall a b, In (a, b) (consec (rows c')) -> f (slab_of (a, b)) = G (r_p b) - G (r_p a)) -> sum_over air (upper_pl (N := Rnum) pb) f = G cb - G 0.
Proof.
  intros Hin Hcut Hf. destruct column_facts as (_ & As & Hd & _). rewrite air_sum by (intros [dp [v|]] H; [discriminate|left; reflexivity]).
  rewrite <- Hd. rewrite <- (sum_telescope r_p (rows c') pb cb (fun ab => f (slab_of ab)) G As Hin Hcut Hf).
  apply sum_cond_ext. intros [a b] _. left. cbn. destruct (Rltb_spec (mid (r_p a) (r_p b)) pb), (Rltb_spec (mid (r_p a) (r_p b)) (s_ps s)); try reflexivity; lra.
Qed.
Lemma air_lower (f : slab Rnum -> R) :
  sum_over air (fun sl => unmasked sl && negb (upper_pl (N := Rnum) pb sl)) f = sum_over air unmasked f - sum_over air (upper_pl (N := Rnum) pb) f.
Proof.
  induction air as [|sl l IH]; [unfold sum_over, total; cbn; ring|]. rewrite !sum_cons, IH. destruct sl as [dp [[[[p q] u] v]|]]; cbn; [|ring].
  destruct (Rltb p pb); cbn; ring.
Qed.
End Column.

(** ** C49 *)
(** Floating point levels: above the ground there is exactly the surface pressure of air, above the
    boundary exactly the boundary pressure, between boundary and ground the difference. *)
Theorem C49_thicknesses_partial argsort factor offset n c s c' pb :
  sorts argsort -> wf n c -> Forall (fun p => 0 <= p) (c_p c) -> 0 < s_ps s -> pb <= s_ps s ->
  extend_pressurelevels Floating argsort factor offset c s = OK (c', pb) ->
  exists l, interp_dp_midpoints c' = OK l /\ List.length l = (n + 2)%nat /\ Forall (fun sl : slab Rnum => 0 <= sl_dp sl) l /\
    let air := mask_below_surface_data (s_ps s) l in
    sum_over air unmasked (fun sl => sl_dp sl) = s_ps s /\
    sum_over air (upper_pl (N := Rnum) pb) (fun sl => sl_dp sl) = pb /\
    sum_over air (fun sl => unmasked sl && negb (upper_pl (N := Rnum) pb sl)) (fun sl => sl_dp sl) = s_ps s - pb.
Proof.
  intros HS W Hp Hps Hbs E. destruct (column_facts Floating argsort factor offset n c s c' pb HS W Hp Hps E) as (Wc & As & Hd & Hb & I1 & I2 & _).
  exists (map slab_of (consec (rows c'))). split; [apply (midpoints_ok _ _ Wc); rewrite (rows_p _ _ Wc) in As; exact As|].
  split. { rewrite map_length. unfold consec. rewrite combine_length. assert (L : List.length (rows c') = S (S (S n))).
    { rewrite <- (map_length r_p), (rows_p _ _ Wc). apply Wc. }
    destruct (rows c') as [|r rs]; [discriminate|]. cbn [tl List.length] in *. lia. }
  split. { apply Forall_map, Forall_forall. intros [a b] H. destruct (consec_sorted r_p _ a b As H) as [Hab _]. cbn. lra. }
  cbn zeta. rewrite air_lower.
  rewrite (air_above Floating argsort factor offset n c s c' pb HS W Hp Hps E (fun sl => sl_dp sl) (fun x => x) (s_ps s) I1 (cut_self r_p _ _ As)) by reflexivity.
  rewrite (air_upper Floating argsort factor offset n c s c' pb HS W Hp Hps E Hbs (fun sl => sl_dp sl) (fun x => x) pb I2 (cut_self r_p _ _ As)) by reflexivity.
  repeat split; ring.
Qed.
(** Integer levels (ARCO-ERA5, old ERA5 files): surface and boundary pressure are truncated when they
    are inserted.  The amount of air is then a whole number of pascals, so never equal to a surface
    pressure that is not.  The error is less than one pascal. *)
Definition integral (x : R) := exists z : Z, x = IZR z.
Lemma cut_int (l : list row) x : ascending (map r_p l) -> (forall p, In p (map r_p l) -> integral p) -> 0 <= x -> In (cast Integer x) (map r_p l) ->
  exists k, In (IZR k) (map r_p l) /\ cut r_p l x (IZR k) /\ IZR k - 1 < x < IZR k + 1.
Proof.
  intros As Hint Hx Hin. pose proof (trunc_pos x Hx) as T. cbn [cast] in Hin. set (z := trunc x) in *.
  destruct (Rlt_dec (IZR z + 1 / 2) x) as [Hhalf|Hhalf]; [destruct (in_dec Req_EM_T (IZR (z + 1)) (map r_p l)) as [Hin1|Hout]|].
  - exists (z + 1)%Z. split; [exact Hin1|]. rewrite plus_IZR. split; [|lra].
    intros a b H. destruct (consec_sorted r_p l a b As H) as [Hab Hgap]. unfold mid.
    destruct (consec_in l a b H) as [Ha Hb]. apply (in_map r_p) in Ha. apply (in_map r_p) in Hb.
    destruct (Hint _ Ha) as [ka Ea], (Hint _ Hb) as [kb Eb]. rewrite Ea, Eb in *. apply le_IZR in Hab. split; intros Hc.
    + destruct (Z.eq_dec ka kb) as [->|]; [now left|right]. rewrite <- plus_IZR in Hc. apply le_IZR in Hc. assert (IZR ka <= IZR z) by (apply IZR_le; lia). assert (IZR kb <= IZR z + 1) by (rewrite <- plus_IZR; apply IZR_le; lia). lra.
    + right. assert (IZR ka <= IZR kb) by now apply IZR_le. lra.
  - exists z. split; [exact Hin|]. split; [|lra].
    intros a b H. destruct (consec_sorted r_p l a b As H) as [Hab Hgap]. unfold mid.
    destruct (consec_in l a b H) as [Ha Hb]. apply (in_map r_p) in Ha. apply (in_map r_p) in Hb.
    destruct (Hint _ Ha) as [ka Ea], (Hint _ Hb) as [kb Eb]. rewrite Ea, Eb in *. apply le_IZR in Hab. split; intros Hc.
    + right. assert (IZR ka <= IZR kb) by now apply IZR_le. lra.
    + destruct (Z.eq_dec ka kb) as [->|]; [now left|right]. apply le_IZR in Hc. destruct (Z.eq_dec ka (z + 1)) as [->|]; [contradiction|]. destruct (Z.eq_dec kb (z + 1)) as [->|]; [contradiction|].
      assert (IZR z + 2 <= IZR kb) by (rewrite <- (plus_IZR z 2); apply IZR_le; lia). assert (IZR z <= IZR ka) by now apply IZR_le. lra.
  - exists z. split; [exact Hin|]. split; [|lra].
    intros a b H. destruct (consec_sorted r_p l a b As H) as [Hab Hgap]. unfold mid.
    destruct (consec_in l a b H) as [Ha Hb]. apply (in_map r_p) in Ha. apply (in_map r_p) in Hb.
    destruct (Hint _ Ha) as [ka Ea], (Hint _ Hb) as [kb Eb]. rewrite Ea, Eb in *. apply le_IZR in Hab. split; intros Hc.
    + destruct (Z.eq_dec ka kb) as [->|]; [now left|right]. apply le_IZR in Hc. assert (IZR ka + 1 <= IZR kb) by (rewrite <- plus_IZR; apply IZR_le; lia). assert (IZR kb <= IZR z) by now apply IZR_le. lra.
    + destruct (Z.eq_dec ka kb) as [->|]; [now left|right]. apply le_IZR in Hc. assert (IZR ka + 1 <= IZR kb) by (rewrite <- plus_IZR; apply IZR_le; lia). assert (IZR z <= IZR ka) by now apply IZR_le. lra.
Qed.
Lemma int_sums argsort factor offset n c s c' pb :
  sorts argsort -> wf n c -> Forall (fun p => 0 <= p) (c_p c) -> Forall integral (c_p c) -> 1 <= s_ps s -> pb <= s_ps s ->
  extend_pressurelevels Integer argsort factor offset c s = OK (c', pb) ->
  exists l, interp_dp_midpoints c' = OK l /\
    let air := mask_below_surface_data (s_ps s) l in
    exists ks kb, sum_over air unmasked (fun sl => sl_dp sl) = IZR ks /\ IZR ks - 1 < s_ps s < IZR ks + 1 /\
      sum_over air (upper_pl (N := Rnum) pb) (fun sl => sl_dp sl) = IZR kb /\ IZR kb - 1 < pb < IZR kb + 1.
Proof.
  intros HS W Hp Hi Hps Hbs E.
  assert (Hps' : 0 < cast Integer (s_ps s)). { cbn. apply (IZR_lt 0). pose proof (trunc_pos (s_ps s) ltac:(lra)). assert (0 < trunc (s_ps s))%Z; [apply lt_IZR; lra|lia]. }
  destruct (column_facts Integer argsort factor offset n c s c' pb HS W Hp Hps' E) as (Wc & As & Hd & Hb & I1 & I2 & Iall).
  assert (Hint : forall p, In p (map r_p (rows c')) -> integral p).
  { intros p H. rewrite Forall_forall in Hi. destruct (Iall p H) as [->|[->|[->|H']]]; [eexists; reflexivity|eexists; reflexivity|now exists 0%Z|now apply Hi]. }
  exists (map slab_of (consec (rows c'))). split; [apply (midpoints_ok _ _ Wc); rewrite (rows_p _ _ Wc) in As; exact As|]. cbn zeta.
  destruct (cut_int _ (s_ps s) As Hint ltac:(lra) I1) as (ks & Ks & Cs & Bs). destruct (cut_int _ pb As Hint Hb I2) as (kb & Kb & Cb & Bb).
  exists ks, kb.
  rewrite (air_above Integer argsort factor offset n c s c' pb HS W Hp Hps' E (fun sl => sl_dp sl) (fun x => x) (IZR ks) Ks Cs) by reflexivity.
  rewrite (air_upper Integer argsort factor offset n c s c' pb HS W Hp Hps' E Hbs (fun sl => sl_dp sl) (fun x => x) (IZR kb) Kb Cb) by reflexivity.
  repeat split; try ring; lra.
Qed.
Theorem C49_integer_levels_refuted argsort factor offset n c s c' pb :
  sorts argsort -> wf n c -> Forall (fun p => 0 <= p) (c_p c) -> Forall integral (c_p c) -> 1 <= s_ps s -> pb <= s_ps s ->
  extend_pressurelevels Integer argsort factor offset c s = OK (c', pb) -> ~ integral (s_ps s) ->
  exists l, interp_dp_midpoints c' = OK l /\ sum_over (mask_below_surface_data (s_ps s) l) unmasked (fun sl => sl_dp sl) <> s_ps s.
Proof.
  intros HS W Hp Hi Hps Hbs E Hn. destruct (int_sums _ _ _ _ _ _ _ _ HS W Hp Hi Hps Hbs E) as (l & El & ks & kb & H1 & _). exists l. split; [exact El|]. cbn zeta in *. rewrite H1.
  intros Q. apply Hn. exists ks. congruence.
Qed.
Theorem C49_integer_levels_error_partial argsort factor offset n c s c' pb :
  sorts argsort -> wf n c -> Forall (fun p => 0 <= p) (c_p c) -> Forall integral (c_p c) -> 1 <= s_ps s -> pb <= s_ps s ->
  extend_pressurelevels Integer argsort factor offset c s = OK (c', pb) ->
  exists l, interp_dp_midpoints c' = OK l /\
    let air := mask_below_surface_data (s_ps s) l in
    Rabs (sum_over air unmasked (fun sl => sl_dp sl) - s_ps s) < 1 /\
    Rabs (sum_over air (upper_pl (N := Rnum) pb) (fun sl => sl_dp sl) - pb) < 1.
Proof.
  intros HS W Hp Hi Hps Hbs E. destruct (int_sums _ _ _ _ _ _ _ _ HS W Hp Hi Hps Hbs E) as (l & El & ks & kb & H1 & H2 & H3 & H4). exists l. split; [exact El|]. cbn zeta in *. rewrite H1, H3.
  split; apply Rabs_def1; lra.
Qed.

(** ** C48: the contents of both layers *)
(** Between two neighbouring levels: mean humidity x thickness / g, and that times the mean wind. *)
Definition water_between (ab : row * row) : R := (r_q (fst ab) + r_q (snd ab)) / 2 * (r_p (snd ab) - r_p (fst ab)) / g0.
Definition eastward (ab : row * row) : R := (r_u (fst ab) + r_u (snd ab)) / 2 * water_between ab.
Definition northward (ab : row * row) : R := (r_v (fst ab) + r_v (snd ab)) / 2 * water_between ab.
(** For floating point levels: storage and fluxes of the upper layer come from the pairs of neighbouring
    levels (of the extended column) above the boundary, those of the lower layer from the pairs between
    boundary and ground; [k] is the factor that makes the column hold the total column water. *)
Theorem C48_pressure_level_layers argsort factor offset n tcw c s r :
  sorts argsort -> wf n c -> Forall (fun p => 0 <= p) (c_p c) -> 0 < s_ps s ->
  let pb := factor * s_ps s + offset in pb <= s_ps s ->
  preprocess_pressure_column Floating argsort factor offset tcw c s = OK r ->
  exists c' k, extend_pressurelevels Floating argsort factor offset c s = OK (c', pb) /\
    let pairs := combine (rows c') (tl (rows c')) in
    let above (ab : row * row) := Rleb (r_p (snd ab)) pb in
    let below (ab : row * row) := Rleb pb (r_p (fst ab)) && Rleb (r_p (snd ab)) (s_ps s) in
    s_upper r = k * sum_over pairs above water_between /\ s_lower r = k * sum_over pairs below water_between /\
    fx_upper r = k * sum_over pairs above eastward /\ fx_lower r = k * sum_over pairs below eastward /\
    fy_upper r = k * sum_over pairs above northward /\ fy_lower r = k * sum_over pairs below northward /\
    (tcw = None -> k = 1) /\
    (forall w, tcw = Some w -> let col := sum_over pairs above water_between + sum_over pairs below water_between in col <> 0 -> k * col = w).
Proof.
  intros HS W Hp Hps pb Hbs H. unfold preprocess_pressure_column in H.
  destruct (extend_pressurelevels Floating argsort factor offset c s) as [[c' pb']|] eqn:E; [|discriminate]. cbn [bind] in H.
  assert (Epb : pb' = pb) by (apply (C49_extended_levels Floating argsort factor offset n c s c' pb' HS W Hp Hps E)). subst pb'.
  destruct (column_facts Floating argsort factor offset n c s c' pb HS W Hp Hps E) as (Wc & As & Hd & Hb & I1 & I2 & _). cbn [cast] in I1, I2.
  rewrite (midpoints_ok _ c' Wc) in H by (rewrite (rows_p _ _ Wc) in As; exact As). cbn [bind] in H.
  set (air := mask_below_surface_data (s_ps s) (map slab_of (consec (rows c')))) in H. injection H as H.
  destruct (integrate_eq (upper_pl (N := Rnum) pb) (fun s => negb (upper_pl (N := Rnum) pb s)) tcw air) as (E1 & E2 & E3 & E4 & E5 & E6). cbn zeta in E1, E2, E3, E4, E5, E6.
  rewrite H in *. clear H. exists c', (scale tcw air). split; [reflexivity|]. cbv zeta.
  change (combine (rows c') (tl (rows c'))) with (consec (rows c')).
  assert (U : forall (f : slab Rnum -> R) g, (forall a b, In (a, b) (consec (rows c')) -> f (slab_of (a, b)) = g (a, b)) -> (forall sl, unmasked sl = false -> f sl = 0) ->
      (forall a b, r_p a = r_p b -> g (a, b) = 0) ->
      sum_over air (upper_pl (N := Rnum) pb) f = sum_over (consec (rows c')) (fun ab => Rleb (r_p (snd ab)) pb) g /\
      sum_over air (fun sl => negb (upper_pl (N := Rnum) pb sl)) f = sum_over (consec (rows c')) (fun ab => Rleb pb (r_p (fst ab)) && Rleb (r_p (snd ab)) (s_ps s)) g).
  { intros f g Hg Hm Hz. unfold air. split.
    - rewrite air_sum by (intros sl Hsl; right; now apply Hm).
      rewrite (sum_ext (consec (rows c')) _ (fun ab => f (slab_of ab)) g) by (intros [a b] Hab _; now apply Hg).
      apply sum_cond_ext. intros [a b] Hab. cbn [fst snd]. destruct (consec_sorted r_p _ a b As Hab) as [Hle Hgap].
      destruct (Req_dec (r_p a) (r_p b)) as [Eq|Ne]; [right; now apply Hz|left].
      cbn [slab_of upper_pl sl_vals nlt Rnum]. apply in_map_iff in I2. destruct I2 as (rb & Erb & Irb). destruct (Hgap rb Irb) as [G|G]; rewrite Erb in G; unfold mid.
      + destruct (Rltb_spec (r_p a + (r_p b - r_p a) * (1 / 2)) pb); [lra|]. destruct (Rleb_spec (r_p b) pb); [lra|]. apply andb_false_r.
      + destruct (Rltb_spec (r_p a + (r_p b - r_p a) * (1 / 2)) pb); [|lra]. destruct (Rltb_spec (r_p a + (r_p b - r_p a) * (1 / 2)) (s_ps s)); [|lra]. destruct (Rleb_spec (r_p b) pb); [reflexivity|lra].
    - rewrite air_sum by (intros sl Hsl; right; now apply Hm).
      rewrite (sum_ext (consec (rows c')) _ (fun ab => f (slab_of ab)) g) by (intros [a b] Hab _; now apply Hg).
      apply sum_cond_ext. intros [a b] Hab. cbn [fst snd]. destruct (consec_sorted r_p _ a b As Hab) as [Hle Hgap].
      destruct (Req_dec (r_p a) (r_p b)) as [Eq|Ne]; [right; now apply Hz|left].
      cbn [slab_of upper_pl sl_vals nlt Rnum]. apply in_map_iff in I1, I2. destruct I1 as (rs & Ers & Irs). destruct I2 as (rb & Erb & Irb).
      pose proof (Hgap rs Irs) as G1. pose proof (Hgap rb Irb) as G2. rewrite Ers in G1. rewrite Erb in G2. unfold mid.
      destruct (Rltb_spec (r_p a + (r_p b - r_p a) * (1 / 2)) pb), (Rltb_spec (r_p a + (r_p b - r_p a) * (1 / 2)) (s_ps s)), (Rleb_spec pb (r_p a)), (Rleb_spec (r_p b) (s_ps s)); cbn; try reflexivity; exfalso; lra. }
  destruct (U slab_water water_between) as [W1 W2].
  { intros a b _. unfold slab_water, water_between, slab_of, mid. cbn. field. unfold g0. lra. }
  { intros [dp [v|]] Q; [discriminate|reflexivity]. }
  { intros a b Q. unfold water_between. cbn. rewrite Q. field. unfold g0. lra. }
  destruct (U (fun sl => slab_u sl * slab_water sl) eastward) as [X1 X2].
  { intros a b _. unfold slab_u, slab_water, eastward, water_between, slab_of, mid. cbn. field. unfold g0. lra. }
  { intros [dp [v|]] Q; [discriminate|cbn; ring]. }
  { intros a b Q. unfold eastward, water_between. cbn. rewrite Q. field. unfold g0. lra. }
  destruct (U (fun sl => slab_v sl * slab_water sl) northward) as [Y1 Y2].
  { intros a b _. unfold slab_v, slab_water, northward, water_between, slab_of, mid. cbn. field. unfold g0. lra. }
  { intros [dp [v|]] Q; [discriminate|cbn; ring]. }
  { intros a b Q. unfold northward, water_between. cbn. rewrite Q. field. unfold g0. lra. }
  rewrite <- W1, <- W2, <- X1, <- X2, <- Y1, <- Y2. repeat (split; [assumption|]). split; [intros ->; reflexivity|].
  intros w ->. rewrite sum_split. intros Hc. unfold scale. field. exact Hc.
Qed.
