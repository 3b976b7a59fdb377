(** * C49: extension of pressure level columns to top, surface and layer boundary *)
From Coq Require Import Reals Lra Lia Arith ZArith List Bool Sorted Permutation Psatz.
From Verif Require Import Num Arr Interp Levels LayersR.
Import ListNotations.
Local Open Scope R_scope.
Local Open Scope list_scope.

(** ** Specification *)
(** np.argsort: the positions of the list in an order that makes the values ascend; nothing is said
    about the order of equal values *)
Definition sorts (argsort : list R -> list nat) : Prop :=
  forall l, Permutation (argsort l) (seq 0 (List.length l)) /\ ascending (map (fun i => l@i) (argsort l)).
(** a level of a column: pressure, humidity, winds *)
Definition row := (R * (R * (R * R)))%type.
Definition rows (c : column) : list row := combine (c_p c) (combine (c_q c) (combine (c_u c) (c_v c))).
Definition r_p (r : row) := fst r. Definition r_q (r : row) := fst (snd r).
Definition r_u (r : row) := fst (snd (snd r)). Definition r_v (r : row) := snd (snd (snd r)).
(** a column with n levels *)
Definition wf (n : nat) (c : column) : Prop :=
  List.length (c_p c) = n /\ List.length (c_q c) = n /\ List.length (c_u c) = n /\ List.length (c_v c) = n.
(** (x, y) is a point of the piecewise linear curve through a set of nodes *)
Definition linear_at (nodes : list (R * R)) (x y : R) : Prop :=
  In (x, y) nodes \/
  exists a fa b fb, In (a, fa) nodes /\ In (b, fb) nodes /\ a < x < b /\
    (forall c fc, In (c, fc) nodes -> ~ a < c < b) /\ (y - fa) * (b - a) = (fb - fa) * (x - a).

(** ** Sorting *)
Lemma nth_seq_all {A} (d : A) l : map (fun i => nth i l d) (seq 0 (List.length l)) = l.
Proof.
  induction l as [|a l IH]; [reflexivity|]. cbn [List.length seq map nth]. f_equal. rewrite <- seq_shift, map_map. exact IH.
Qed.
Lemma take_perm {A} (d : A) idx l : Permutation idx (seq 0 (List.length l)) -> Permutation (take_along d idx l) l.
Proof. intros H. unfold take_along. eapply Permutation_trans; [apply Permutation_map, H|]. rewrite nth_seq_all. reflexivity. Qed.
Lemma combine_map2 {A B C} (f : A -> B) (g : A -> C) l : combine (map f l) (map g l) = map (fun a => (f a, g a)) l.
Proof. induction l as [|a l IH]; cbn; [reflexivity|]. now rewrite IH. Qed.
Lemma take_combine {A B} (d : A) (e : B) idx (l : list A) (m : list B) : List.length l = List.length m ->
  combine (take_along d idx l) (take_along e idx m) = take_along (d, e) idx (combine l m).
Proof. intros H. unfold take_along. rewrite combine_map2. apply map_ext. intros i. now rewrite combine_nth. Qed.
Lemma take_length {A} (d : A) idx l : List.length (take_along d idx l) = List.length idx.
Proof. apply map_length. Qed.
Definition sorted_column argsort (c : column) : column :=
  mkcolumn (sortby_ndarray argsort (c_p c) (c_p c)) (sortby_ndarray argsort (c_u c) (c_p c)) (sortby_ndarray argsort (c_v c) (c_p c)) (sortby_ndarray argsort (c_q c) (c_p c)).
Lemma sorted_column_ok argsort n c : sorts argsort -> wf n c ->
  let c' := sorted_column argsort c in wf n c' /\ Permutation (rows c') (rows c) /\ ascending (c_p c').
Proof.
  intros HS (L1 & L2 & L3 & L4). cbn zeta. destruct (HS (c_p c)) as [P A].
  assert (Ln : List.length (argsort (c_p c)) = n) by (rewrite (Permutation_length P), seq_length; exact L1).
  split; [|split].
  - unfold wf, sorted_column, sortby_ndarray. cbn [c_p c_q c_u c_v]. rewrite !take_length. auto.
  - unfold rows, sorted_column, sortby_ndarray. cbn [c_p c_q c_u c_v].
    rewrite (take_combine 0 0 _ (c_u c) (c_v c)) by congruence. rewrite (take_combine 0 (0, 0) _ (c_q c)) by (rewrite combine_length; lia).
    rewrite (take_combine 0 (0, (0, 0)) _ (c_p c)) by (rewrite !combine_length; lia).
    apply take_perm. unfold row. match goal with |- Permutation _ (seq 0 ?m) => replace m with (List.length (c_p c)); [exact P|] end. rewrite !combine_length. lia.
  - exact A.
Qed.
Lemma argmin_spec l k : argmin l = OK k -> (k < List.length l)%nat /\ forall i, (i < List.length l)%nat -> l@k <= l@i.
Proof.
  destruct l as [|x l]; [discriminate|]. cbn [argmin]. intros [= <-].
  (* invariant: [best] is the value at [bi] of the whole list, and below everything before [i] *)
  assert (G : forall l pre best bi, (bi < List.length pre)%nat -> pre@bi = best -> (forall j, (j < List.length pre)%nat -> best <= pre@j) ->
    let k := argmin_from best bi (List.length pre) l in (k < List.length (pre ++ l))%nat /\ forall j, (j < List.length (pre ++ l))%nat -> (pre ++ l)@k <= (pre ++ l)@j).
  { clear. induction l as [|y l IH]; intros pre best bi Hb E H; cbn zeta.
    - cbn. rewrite app_nil_r. split; [exact Hb|]. rewrite E. exact H.
    - cbn [argmin_from]. replace (pre ++ y :: l) with ((pre ++ [y]) ++ l) by (rewrite <- app_assoc; reflexivity).
      replace (S (List.length pre)) with (List.length (pre ++ [y])) by (rewrite app_length; cbn; lia).
      destruct (Rltb_spec y best) as [Hy|Hy].
      + apply IH.
        * rewrite app_length. cbn. lia.
        * rewrite app_nth2, Nat.sub_diag by lia. reflexivity.
        * intros j Hj. rewrite app_length in Hj. cbn in Hj. destruct (Nat.eq_dec j (List.length pre)) as [->|]; [rewrite app_nth2, Nat.sub_diag by lia; cbn; lra|].
          rewrite app_nth1 by lia. specialize (H j ltac:(lia)). lra.
      + apply IH.
        * rewrite app_length. cbn. lia.
        * rewrite app_nth1 by lia. exact E.
        * intros j Hj. rewrite app_length in Hj. cbn in Hj. destruct (Nat.eq_dec j (List.length pre)) as [->|]; [rewrite app_nth2, Nat.sub_diag by lia; cbn; lra|].
          rewrite app_nth1 by lia. apply H. lia. }
  apply (G l [x] x 0%nat); cbn; try lia; try reflexivity. intros j Hj. assert (j = 0)%nat as -> by lia. lra.
Qed.

(** ** Interpolation to the boundary *)
Lemma on_curve_linear xp fp x y : List.length fp = List.length xp -> ascending xp -> on_curve xp fp x y -> linear_at (combine xp fp) x y.
Proof.
  intros L A [(k & Hk & Ex & Ey)|(k & Hk & Hx & Hy)].
  - left. rewrite Ex, Ey, <- combine_nth by (symmetry; exact L). apply nth_In. rewrite combine_length. lia.
  - right. exists (xp@k), (fp@k), (xp@(S k)), (fp@(S k)).
    split; [rewrite <- combine_nth by (symmetry; exact L); apply nth_In; rewrite combine_length; lia|].
    split; [rewrite <- combine_nth by (symmetry; exact L); apply nth_In; rewrite combine_length; lia|].
    pose proof (A k Hk). split; [lra|]. split; [|exact Hy].
    intros c fc Hin Hc. apply In_nth with (d := (0, 0)) in Hin. destruct Hin as (i & Hi & E). rewrite combine_length in Hi.
    rewrite combine_nth in E by (symmetry; exact L). injection E as <- _.
    destruct (le_lt_dec i k); [pose proof (ascending_le xp i k A ltac:(lia))|pose proof (ascending_le xp (S k) i A ltac:(lia))]; lra.
Qed.
Lemma linear_at_perm nodes nodes' x y : Permutation nodes nodes' -> linear_at nodes x y -> linear_at nodes' x y.
Proof.
  intros P [H|(a & fa & b & fb & Ha & Hb & Hx & Hc & Hy)].
  - left. now apply (Permutation_in _ P).
  - right. exists a, fa, b, fb. split; [now apply (Permutation_in _ P)|]. split; [now apply (Permutation_in _ P)|]. split; [exact Hx|]. split; [|exact Hy].
    intros c fc Hin. apply (Hc c fc). now apply (Permutation_in _ (Permutation_sym P)).
Qed.
Lemma interpolate_column_ok x xp fp y : ascending xp -> List.length fp = List.length xp -> (2 <= List.length xp)%nat -> hd 0 xp < last xp 0 ->
  interpolate_column x xp fp = OK y -> on_curve xp fp x y /\ hd 0 xp <= x <= last xp 0.
Proof.
  intros A L n2 HD E. unfold interpolate_column in E. destruct (@interpolate Rnum false [(x, xp, fp)]) as [r|] eqn:Ei; [|discriminate]. cbn [bind] in E. injection E as <-.
  assert (RC : rect (List.length xp) [(x, xp, fp)]) by (repeat constructor; cbn; auto).
  pose proof (C50_interpolate_value (List.length xp) false [(x, xp, fp)] r n2 RC) as H. specialize (H ltac:(constructor; [exact HD|constructor]) Ei).
  inversion H as [|? y ? r' C H2]; subst. inversion H2; subst. cbv beta iota in C. destruct C as [C _]. cbn [hd]. split; [exact C|].
  destruct (C50_interpolate_guards (List.length xp) false [(x, xp, fp)] n2 ltac:(discriminate) RC) as (_ & _ & G).
  destruct G as [G _]. destruct (G (ex_intro _ _ Ei)) as [_ O]. destruct (Rlt_dec x (hd 0 xp)) as [Q|Q]; [exfalso; apply O; constructor; left; exact Q|].
  destruct (Rlt_dec (last xp 0) x) as [Q2|Q2]; [exfalso; apply O; constructor; right; exact Q2|]. lra.
Qed.
Lemma interpolate_column_exists x xp fp : ascending xp -> List.length fp = List.length xp -> (2 <= List.length xp)%nat -> hd 0 xp <= x <= last xp 0 ->
  exists y, interpolate_column x xp fp = OK y.
Proof.
  intros A L n2 HX. unfold interpolate_column.
  assert (RC : rect (List.length xp) [(x, xp, fp)]) by (repeat constructor; cbn; auto).
  destruct (C50_interpolate_guards (List.length xp) false [(x, xp, fp)] n2 ltac:(discriminate) RC) as (_ & _ & G).
  destruct (proj2 G) as [ys Ei].
  - split; [constructor; [exact A|constructor]|]. intros H. inversion H as [? ? O|? ? O]; subst; [cbn [outside lowest highest] in O; lra|inversion O].
  - rewrite Ei. cbn [bind]. eauto.
Qed.
Lemma asc_bounds l x : ascending l -> In x l -> hd 0 l <= x <= last l 0.
Proof.
  intros A H. apply In_nth with (d := 0) in H. destruct H as (i & Hi & <-). rewrite hd_nth, last_nth. split; apply ascending_le; auto; lia.
Qed.
Lemma rows_in n c r : wf n c -> In r (rows c) <-> exists i, (i < n)%nat /\ r = ((c_p c)@i, ((c_q c)@i, ((c_u c)@i, (c_v c)@i))).
Proof.
  intros (L1 & L2 & L3 & L4). unfold rows.
  assert (Lr : List.length (combine (c_p c) (combine (c_q c) (combine (c_u c) (c_v c)))) = n) by (rewrite !combine_length; lia).
  assert (E : forall i, nth i (combine (c_p c) (combine (c_q c) (combine (c_u c) (c_v c)))) (0, (0, (0, 0))) = ((c_p c)@i, ((c_q c)@i, ((c_u c)@i, (c_v c)@i)))).
  { intros i. rewrite combine_nth by (rewrite !combine_length; lia). rewrite combine_nth by (rewrite !combine_length; lia). rewrite combine_nth by lia. reflexivity. }
  split.
  - intros H. apply In_nth with (d := (0, (0, (0, 0)))) in H. destruct H as (i & Hi & <-). exists i. split; [unfold row in *; rewrite Lr in Hi; exact Hi|apply E].
  - intros (i & Hi & ->). rewrite <- E. apply nth_In. unfold row in *. rewrite Lr. exact Hi.
Qed.
Lemma rows_p n c : wf n c -> map r_p (rows c) = c_p c.
Proof.
  intros (L1 & L2 & L3 & L4). unfold rows, r_p. assert (G : forall {A B} (l : list A) (m : list B), List.length l = List.length m -> map fst (combine l m) = l).
  { clear. induction l as [|a l IH]; intros [|b m] H; cbn in *; try lia; [reflexivity|]. now rewrite IH by lia. }
  apply G. rewrite !combine_length. lia.
Qed.
Lemma combine_seq n (l m : list R) : List.length l = n -> List.length m = n -> combine l m = map (fun i => (l@i, m@i)) (seq 0 n).
Proof. intros L1 L2. rewrite <- combine_map2. rewrite <- L1 at 1. rewrite nth_seq_all. rewrite <- L2. now rewrite nth_seq_all. Qed.
Lemma nodes_rows n c : wf n c ->
  combine (c_p c) (c_q c) = map (fun r => (r_p r, r_q r)) (rows c) /\ combine (c_p c) (c_u c) = map (fun r => (r_p r, r_u r)) (rows c) /\ combine (c_p c) (c_v c) = map (fun r => (r_p r, r_v r)) (rows c).
Proof.
  intros W. assert (E : rows c = map (fun i => ((c_p c)@i, ((c_q c)@i, ((c_u c)@i, (c_v c)@i)))) (seq 0 n)).
  { destruct W as (L1 & L2 & L3 & L4). unfold rows. rewrite <- (nth_seq_all 0 (c_p c)) at 1. rewrite <- (nth_seq_all 0 (c_q c)) at 1. rewrite <- (nth_seq_all 0 (c_u c)) at 1. rewrite <- (nth_seq_all 0 (c_v c)) at 1.
    rewrite L1, L2, L3, L4, !combine_map2. reflexivity. }
  rewrite E, !map_map. unfold r_p, r_q, r_u, r_v. cbn [fst snd]. destruct W as (L1 & L2 & L3 & L4).
  repeat split; apply combine_seq; assumption.
Qed.

(** ** Model facts *)
Lemma trunc_pos x : 0 <= x -> IZR (trunc x) <= x < IZR (trunc x) + 1.
Proof.
  intros H. unfold trunc. destruct (Rltb_spec x 0); [lra|]. destruct (base_Int_part x). lra.
Qed.
Lemma trunc_IZR z : trunc (IZR z) = z.
Proof.
  unfold trunc. assert (G : forall k, Int_part (IZR k) = k).
  { intros k. destruct (base_Int_part (IZR k)) as [H1 H2]. apply le_IZR in H1. assert (IZR k < IZR (Int_part (IZR k) + 1)) by (rewrite plus_IZR; lra). apply lt_IZR in H. lia. }
  destruct (Rltb_spec (IZR z) 0); [|apply G]. rewrite <- opp_IZR, G. lia.
Qed.
Lemma cast_0 t : cast t 0 = 0.
Proof. destruct t; [reflexivity|]. cbn. now rewrite (trunc_IZR 0). Qed.
Lemma cast_pos t x : 0 <= x -> 0 <= cast t x <= x.
Proof.
  intros H. destruct t; cbn; [lra|]. pose proof (trunc_pos x H) as T. split; [|lra]. apply (IZR_le 0). unfold trunc in *. destruct (Rltb_spec x 0); [lra|].
  assert (-1 < Int_part x)%Z; [|lia]. apply lt_IZR. lra.
Qed.

(** the column after adding top and surface, before and after sorting *)
Definition with_ends t (c : column) s k : column :=
  mkcolumn (cast t (s_ps s) :: cast t 0 :: c_p c) (s_us s :: nth k (c_u c) 0 :: c_u c) (s_vs s :: nth k (c_v c) 0 :: c_v c) (s_qs s :: 0 :: c_q c).
Definition add_boundary t pb ub vb qb (c : column) : column :=
  mkcolumn (cast t pb :: c_p c) (ub :: c_u c) (vb :: c_v c) (qb :: c_q c).
Lemma extend_eq t argsort factor offset c s : extend_pressurelevels t argsort factor offset c s =
  do k <- argmin (c_p c);
  let e := sorted_column argsort (with_ends t c s k) in
  let pb := factor * s_ps s + offset in
  do ub <- interpolate_column pb (c_p e) (c_u e);
  do vb <- interpolate_column pb (c_p e) (c_v e);
  do qb <- interpolate_column pb (c_p e) (c_q e);
  OK (sorted_column argsort (add_boundary t pb ub vb qb e), pb).
Proof. reflexivity. Qed.

(** ** C49: levels and values *)
(** The result has the levels of the column, the top of the atmosphere, the surface and the boundary,
    in ascending order of pressure, whatever the order of the input; every level keeps its own
    humidity and wind; at the top there is no humidity and the wind of the level with the lowest
    pressure; at the boundary the values are interpolated linearly between the neighbouring levels. *)
Theorem C49_extended_levels t argsort factor offset n c s c' pb :
  sorts argsort -> wf n c -> Forall (fun p => 0 <= p) (c_p c) -> 0 < cast t (s_ps s) ->
  extend_pressurelevels t argsort factor offset c s = OK (c', pb) ->
  pb = factor * s_ps s + offset /\ wf (S (S (S n))) c' /\ ascending (c_p c') /\ hd 0 (c_p c') = 0 /\ 0 <= pb /\
  exists k ub vb qb, (k < n)%nat /\ (forall i, (i < n)%nat -> (c_p c)@k <= (c_p c)@i) /\
    (let ends := (cast t (s_ps s), (s_qs s, (s_us s, s_vs s))) :: (0, (0, ((c_u c)@k, (c_v c)@k))) :: rows c in
     Permutation (rows c') ((cast t pb, (qb, (ub, vb))) :: ends) /\
     linear_at (map (fun r => (r_p r, r_q r)) ends) pb qb /\
     linear_at (map (fun r => (r_p r, r_u r)) ends) pb ub /\
     linear_at (map (fun r => (r_p r, r_v r)) ends) pb vb).
Proof.
  intros HS W Hp Hps. rewrite extend_eq. cbn zeta. destruct (argmin (c_p c)) as [k|] eqn:Ek; [|discriminate]. cbn [bind].
  apply argmin_spec in Ek. assert (L1 : List.length (c_p c) = n) by apply W. rewrite L1 in Ek.
  set (w := with_ends t c s k).
  assert (Ww : wf (S (S n)) w) by (destruct W as (? & ? & ? & ?); unfold w, with_ends, wf; cbn; repeat split; congruence).
  destruct (sorted_column_ok argsort _ w HS Ww) as (We & Pe & Ae). set (e := sorted_column argsort w) in *. clearbody e.
  assert (In0 : In 0 (c_p e)). { rewrite <- (rows_p _ _ We). apply Permutation_in with (map r_p (rows w)); [now apply Permutation_map, Permutation_sym|]. rewrite (rows_p _ _ Ww). cbn. rewrite cast_0. auto. }
  assert (Ins : In (cast t (s_ps s)) (c_p e)). { rewrite <- (rows_p _ _ We). apply Permutation_in with (map r_p (rows w)); [now apply Permutation_map, Permutation_sym|]. rewrite (rows_p _ _ Ww). cbn. auto. }
  pose proof (asc_bounds _ _ Ae In0). pose proof (asc_bounds _ _ Ae Ins).
  assert (Le : List.length (c_p e) = S (S n)) by apply We.
  assert (Hd : hd 0 (c_p e) < last (c_p e) 0) by lra.
  assert (Hnn : forall x, In x (c_p e) -> 0 <= x).
  { intros x Hx. rewrite <- (rows_p _ _ We) in Hx. apply (Permutation_in _ (Permutation_map r_p Pe)) in Hx. rewrite (rows_p _ _ Ww) in Hx. cbn in Hx. rewrite cast_0 in Hx.
    rewrite Forall_forall in Hp. destruct Hx as [<-|[<-|Hx]]; [lra|lra|now apply Hp]. }
  destruct (interpolate_column _ _ (c_u e)) as [ub|] eqn:Eu; [|discriminate]. cbn [bind]. destruct (interpolate_column _ _ (c_v e)) as [vb|] eqn:Ev; [|discriminate]. cbn [bind].
  destruct (interpolate_column _ _ (c_q e)) as [qb|] eqn:Eq; [|discriminate]. cbn [bind]. intros [= <- <-].
  assert (We' := We). destruct We' as (_ & Lq & Lu & Lv).
  apply interpolate_column_ok in Eu; [|auto; lia..]. apply interpolate_column_ok in Ev; [|auto; lia..]. apply interpolate_column_ok in Eq; [|auto; lia..].
  destruct Eu as [Cu _], Ev as [Cv _], Eq as [Cq Hb].
  apply on_curve_linear in Cu; [|lia|exact Ae]. apply on_curve_linear in Cv; [|lia|exact Ae]. apply on_curve_linear in Cq; [|lia|exact Ae].
  destruct (nodes_rows _ _ We) as (N1 & N2 & N3). rewrite N1 in Cq. rewrite N2 in Cu. rewrite N3 in Cv.
  set (pb := factor * s_ps s + offset) in *.
  assert (Hd0 : 0 <= hd 0 (c_p e)). { apply Hnn. destruct (c_p e); [cbn in Le; lia|now left]. }
  set (b := add_boundary t pb ub vb qb e).
  assert (Wb : wf (S (S (S n))) b) by (unfold b, add_boundary, wf; cbn; repeat split; congruence).
  destruct (sorted_column_ok argsort _ b HS Wb) as (Wo & Po & Ao). set (o := sorted_column argsort b) in *. clearbody o.
  split; [reflexivity|]. split; [exact Wo|]. split; [exact Ao|]. split; [|split; [lra|]].
  - assert (I0 : In 0 (c_p o)). { rewrite <- (rows_p _ _ Wo). apply Permutation_in with (map r_p (rows b)); [now apply Permutation_map, Permutation_sym|]. rewrite (rows_p _ _ Wb). unfold b, add_boundary. cbn. auto. }
    pose proof (asc_bounds _ _ Ao I0).
    assert (In (hd 0 (c_p o)) (c_p o)) as I1. { destruct (c_p o); [contradiction|now left]. }
    rewrite <- (rows_p _ _ Wo) in I1 at 2. apply (Permutation_in _ (Permutation_map r_p Po)) in I1. rewrite (rows_p _ _ Wb) in I1. unfold b, add_boundary in I1. cbn in I1.
    assert (0 <= cast t pb) by (apply cast_pos; lra). destruct I1 as [I1|I1]; [lra|]. apply Hnn in I1. lra.
  - exists k, ub, vb, qb. split; [apply Ek|]. split; [apply Ek|]. cbn zeta.
    assert (Ew : rows w = (cast t (s_ps s), (s_qs s, (s_us s, s_vs s))) :: (0, (0, ((c_u c)@k, (c_v c)@k))) :: rows c) by (unfold rows, w, with_ends; cbn; rewrite cast_0; reflexivity).
    rewrite <- Ew. split.
    + eapply Permutation_trans; [exact Po|]. unfold b, rows, add_boundary. cbn. apply perm_skip. exact Pe.
    + repeat split; (eapply linear_at_perm; [apply Permutation_map, Pe|assumption]).
Qed.
(** It returns for every column with a boundary between 0 and the surface (as it is inserted: for integer levels
    truncated to whole pascals). *)
Theorem C49_extension_succeeds t argsort factor offset n c s :
  sorts argsort -> wf (S n) c -> Forall (fun p => 0 <= p) (c_p c) -> 0 <= factor * s_ps s + offset <= cast t (s_ps s) ->
  exists c' , extend_pressurelevels t argsort factor offset c s = OK (c', factor * s_ps s + offset).
Proof.
  intros HS W Hp Hb. rewrite extend_eq. cbn zeta.
  assert (L1 : List.length (c_p c) = S n) by apply W. destruct (argmin (c_p c)) as [k|] eqn:Ek; [|destruct (c_p c); discriminate]. cbn [bind].
  set (w := with_ends t c s k).
  assert (Ww : wf (S (S (S n))) w) by (destruct W as (? & ? & ? & ?); unfold w, with_ends, wf; cbn; repeat split; congruence).
  destruct (sorted_column_ok argsort _ w HS Ww) as (We & Pe & Ae). set (e := sorted_column argsort w) in *. clearbody e.
  assert (In0 : In 0 (c_p e)). { rewrite <- (rows_p _ _ We). apply Permutation_in with (map r_p (rows w)); [now apply Permutation_map, Permutation_sym|]. rewrite (rows_p _ _ Ww). cbn. rewrite cast_0. auto. }
  assert (Ins : In (cast t (s_ps s)) (c_p e)). { rewrite <- (rows_p _ _ We). apply Permutation_in with (map r_p (rows w)); [now apply Permutation_map, Permutation_sym|]. rewrite (rows_p _ _ Ww). cbn. auto. }
  pose proof (asc_bounds _ _ Ae In0). pose proof (asc_bounds _ _ Ae Ins). destruct We as (Le & Lq & Lu & Lv).
  destruct (interpolate_column_exists (factor * s_ps s + offset) (c_p e) (c_u e)) as [ub ->]; [auto; lia || lra..|]. cbn [bind].
  destruct (interpolate_column_exists (factor * s_ps s + offset) (c_p e) (c_v e)) as [vb ->]; [auto; lia || lra..|]. cbn [bind].
  destruct (interpolate_column_exists (factor * s_ps s + offset) (c_p e) (c_q e)) as [qb ->]; [auto; lia || lra..|]. cbn [bind]. eauto.
Qed.
