(** * C50: vertical interpolation (preprocessing/utils.py l.96-147) *)
From Coq Require Import Reals Lra Lia Arith ZArith List Bool Sorted Psatz.
From Verif Require Import Num Arr.
Import ListNotations.
Local Open Scope R_scope.
Local Open Scope list_scope.

(** ** Model *)
Section Model.
Context {N : NumOps}.
(** np.diff along the interpolation axis *)
Fixpoint ndiffs (l : list N) : list N :=
  match l with x :: ((y :: _) as t) => nsub y x :: ndiffs t | _ => [] end.
(** numpy (advanced) indexing along the first axis: negative indices count from the end *)
Definition npidx (l : list N) (k : Z) : res N :=
  let n := Z.of_nat (List.length l) in
  if (Z.leb 0 k && Z.ltb k n)%bool then OK (nth (Z.to_nat k) l n0)
  else if (Z.leb (- n) k && Z.ltb k 0)%bool then OK (nth (Z.to_nat (n + k)) l n0)
  else Err IndexError.
(** l.138-147, for one point of the (N-1)-dimensional slice *)
Definition interp1 (x : N) (xp fp : list N) : res N :=
  let upper := Z.of_nat (List.length (filter (fun y => nlt y x) xp)) in
  let lower := (upper - 1)%Z in
  do fl <- npidx fp lower;
  do fu <- npidx fp upper;
  do xl <- npidx xp lower;
  do xu <- npidx xp upper;
  OK (nadd fl (ndiv (nmul (nsub fu fl) (nsub x xl)) (nsub xu xl))).
(** a point of the slice: where to interpolate to, coordinates and data along the axis *)
Definition icol := (N * list N * list N)%type.
Definition flip (d : bool) (c : icol) : icol :=
  let '(x, xp, fp) := c in if d then (x, rev xp, rev fp) else (x, xp, fp).
Fixpoint mapM {A B} (f : A -> res B) (l : list A) : res (list B) :=
  match l with [] => OK [] | a :: l => do b <- f a; do r <- mapM f l; OK (b :: r) end.
(** l.96-147.  The arrays are given as a list of points (all axes but the interpolation axis
    flattened); x, xp and fp have matching shapes.  The minimum of an empty array raises
    ValueError; a minimum is >= 0 iff all differences are (nan is not). *)
Definition interpolate (descending : bool) (cols : list icol) : res (list N) :=
  let cols := map (flip descending) cols in
  let d := concat (map (fun c => ndiffs (snd (fst c))) cols) in
  match d with
  | [] => Err ValueError
  | _ =>
    if negb (forallb (fun v => nle n0 v) d) then Err AssertionError
    else if existsb (fun c : icol => let '(x, xp, _) := c in nlt x (hd n0 xp)) cols then Err ValueError
    else if existsb (fun c : icol => let '(x, xp, _) := c in nlt (last xp n0) x) cols then Err ValueError
    else mapM (fun c : icol => let '(x, xp, fp) := c in interp1 x xp fp) cols
  end.
End Model.

(** ** Specification *)
Notation "l @ k" := (nth k l 0) (at level 9, k at level 9).
(** y is a value of the piecewise linear curve through the nodes: the value of a node, or on the
    straight line between two neighbouring nodes with different coordinates, one of them left
    and one right of x *)
Definition on_curve (xp fp : list R) (x y : R) : Prop :=
  (exists k, (k < List.length xp)%nat /\ x = xp@k /\ y = fp@k) \/
  (exists k, (S k < List.length xp)%nat /\ (xp@k < x < xp@(S k) \/ xp@(S k) < x < xp@k) /\
     (y - fp@k) * (xp@(S k) - xp@k) = (fp@(S k) - fp@k) * (x - xp@k)).
(** monotonic coordinates, in the stated direction *)
Definition ascending (l : list R) := forall i, (S i < List.length l)%nat -> l@i <= l@(S i).
Definition descends (l : list R) := forall i, (S i < List.length l)%nat -> l@(S i) <= l@i.
Definition monotone (d : bool) := if d then descends else ascending.
Definition lowest (d : bool) (l : list R) := if d then last l 0 else hd 0 l.
Definition highest (d : bool) (l : list R) := if d then hd 0 l else last l 0.
(** the input arrays have the shape (n, #points) *)
Definition rect (n : nat) (cols : list (@icol Rnum)) : Prop :=
  Forall (fun c : @icol Rnum => List.length (snd (fst c)) = n /\ List.length (snd c) = n) cols.

(** ** Sorted lists *)
Lemma nth_rev (l : list R) k : (k < List.length l)%nat -> (rev l)@k = l@(List.length l - S k).
Proof. intros. now apply rev_nth. Qed.
Lemma ascending_le l i j : ascending l -> (i <= j < List.length l)%nat -> l@i <= l@j.
Proof.
  intros A [Hij Hj]. induction Hij as [|j Hij IH]; [lra|].
  specialize (A j Hj). specialize (IH ltac:(lia)). lra.
Qed.
Lemma ascending_cons a l : ascending (a :: l) -> ascending l.
Proof. intros A i Hi. apply (A (S i)). cbn. lia. Qed.
Lemma descends_rev l : descends l <-> ascending (rev l).
Proof.
  split; intros H i Hi.
  - rewrite rev_length in Hi. rewrite !nth_rev by lia. specialize (H (List.length l - S (S i))%nat).
    replace (S (List.length l - S (S i))) with (List.length l - S i)%nat in H by lia. apply H. lia.
  - specialize (H (List.length l - S (S i))%nat). rewrite rev_length in H. rewrite !nth_rev in H by lia.
    replace (List.length l - S (List.length l - S (S i)))%nat with (S i) in H by lia.
    replace (List.length l - S (S (List.length l - S (S i))))%nat with i in H by lia. apply H. lia.
Qed.
Lemma hd_nth (l : list R) : hd 0 l = l@0.
Proof. now destruct l. Qed.
Lemma last_nth (l : list R) : last l 0 = l@(List.length l - 1).
Proof.
  destruct l as [|a l] using rev_ind; [reflexivity|]. rewrite last_last, app_length. cbn. rewrite app_nth2 by lia.
  now replace (List.length l + 1 - 1 - List.length l)%nat with 0%nat by lia.
Qed.
Lemma ndiffs_ascending (l : list R) : forallb (fun v => @nle Rnum n0 v) (@ndiffs Rnum l) = true <-> ascending l.
Proof.
  induction l as [|a [|b l] IH].
  - split; [|reflexivity]. intros _ i Hi. cbn in Hi. lia.
  - split; [|reflexivity]. intros _ i Hi. cbn in Hi. lia.
  - change (@ndiffs Rnum (a :: b :: l)) with ((b - a) :: @ndiffs Rnum (b :: l)). cbn [forallb]. rewrite andb_true_iff, IH.
    cbn [nle Rnum]. change (@n0 Rnum) with 0. destruct (Rleb_spec 0 (b - a)) as [H|H].
    + split.
      * intros [_ A] [|i] Hi; [cbn; lra|]. apply (A i). cbn in *. lia.
      * intros A. split; [reflexivity|]. exact (ascending_cons _ _ A).
    + split; [intros [? _]; discriminate|]. intros A. specialize (A 0%nat ltac:(cbn; lia)). cbn in A. lra.
Qed.
(** number of nodes left of x *)
Notation below x xp := (List.length (filter (fun y => Rltb y x) xp)).
Lemma below_le x xp : (below x xp <= List.length xp)%nat.
Proof. induction xp as [|a xp IH]; cbn; [lia|]. destruct (Rltb a x); cbn; lia. Qed.
Lemma below_spec x xp : ascending xp -> forall i, (i < List.length xp)%nat ->
  ((i < below x xp)%nat -> xp@i < x) /\ ((below x xp <= i)%nat -> x <= xp@i).
Proof.
  induction xp as [|a xp IH]; intros A i Hi; [cbn in Hi; lia|].
  cbn [filter]. destruct (Rltb_spec a x) as [H|H].
  - cbn [List.length]. destruct i as [|i]; cbn [nth].
    + split; [intros _; exact H|lia].
    + specialize (IH (ascending_cons _ _ A) i). cbn in Hi. destruct IH as [I1 I2]; [lia|]. split; intros; [apply I1|apply I2]; lia.
  - assert (B : forall j, (j < List.length (a :: xp))%nat -> x <= (a :: xp)@j).
    { intros j Hj. pose proof (ascending_le _ 0 j A ltac:(lia)). cbn [nth] in *. lra. }
    split; [|intros _; now apply B]. intros L. exfalso.
    assert (E : filter (fun y => Rltb y x) xp = []).
    { clear -B. induction xp as [|b xp IH]; [reflexivity|]. cbn. destruct (Rltb_spec b x) as [K|K].
      - specialize (B 1%nat ltac:(cbn; lia)). cbn in B. lra.
      - apply IH. intros [|j] Hj; [apply (B 0%nat); cbn; lia|]. apply (B (S (S j))). cbn in *. lia. }
    rewrite E in L. cbn in L. lia.
Qed.

(** ** One point *)
Lemma npidx_nat (l : list R) k : (k < List.length l)%nat -> @npidx Rnum l (Z.of_nat k) = OK (l@k).
Proof.
  intros H. unfold npidx. cbn [num Rnum]. destruct (Z.leb_spec 0 (Z.of_nat k)); [|lia]. destruct (Z.ltb_spec (Z.of_nat k) (Z.of_nat (List.length l))); [|lia].
  cbn [andb]. now rewrite Nat2Z.id.
Qed.
Lemma npidx_m1 (l : list R) : (0 < List.length l)%nat -> @npidx Rnum l (-1)%Z = OK (l@(List.length l - 1)).
Proof.
  intros H. unfold npidx. cbn [num Rnum]. destruct (Z.leb_spec 0 (-1)); [lia|]. cbn [andb].
  destruct (Z.leb_spec (- Z.of_nat (List.length l)) (-1)); [|lia]. cbn [andb].
  replace (Z.to_nat (Z.of_nat (List.length l) + -1)) with (List.length l - 1)%nat by lia. reflexivity.
Qed.
Definition line x xl xu fl fu := fl + (fu - fl) * (x - xl) / (xu - xl).
Lemma line_right xl xu fl fu : xu <> xl -> line xu xl xu fl fu = fu.
Proof. intros. unfold line. field. lra. Qed.
(** the value computed, in terms of the position of x *)
Lemma interp1_eq (x : R) (xp fp : list R) : ascending xp -> List.length fp = List.length xp -> (2 <= List.length xp)%nat ->
  hd 0 xp <= x <= last xp 0 ->
  (x = xp@0 /\ @interp1 Rnum x xp fp = OK (line x (xp@(List.length xp - 1)) (xp@0) (fp@(List.length xp - 1)) (fp@0))) \/
  (exists k, (S k < List.length xp)%nat /\ xp@k < x <= xp@(S k) /\
     (forall j, (j <= k)%nat -> xp@j < x) /\
     @interp1 Rnum x xp fp = OK (line x (xp@k) (xp@(S k)) (fp@k) (fp@(S k)))).
Proof.
  intros A L n2 [H1 H2]. rewrite hd_nth in H1. rewrite last_nth in H2. unfold interp1. cbn [num Rnum nlt].
  assert (B := below_spec x xp A). assert (Ble := below_le x xp).
  destruct (below x xp) as [|k] eqn:E.
  - left. split.
    + destruct (B 0%nat ltac:(lia)) as [_ B0]. specialize (B0 ltac:(lia)). lra.
    + change (Z.of_nat 0 - 1)%Z with (-1)%Z. rewrite !npidx_m1 by lia. rewrite !npidx_nat by lia. rewrite L. reflexivity.
  - right. assert (S k < List.length xp)%nat.
    { destruct (Nat.eq_dec (S k) (List.length xp)) as [Q|]; [|lia]. exfalso.
      destruct (B (List.length xp - 1)%nat ltac:(lia)) as [B1 _]. specialize (B1 ltac:(lia)). lra. }
    exists k. split; [exact H|]. split; [split|].
    + apply (B k); lia.
    + apply (B (S k)); lia.
    + split; [intros j Hj; apply (B j); lia|]. replace (Z.of_nat (S k) - 1)%Z with (Z.of_nat k) by lia. rewrite !npidx_nat by lia. reflexivity.
Qed.
Lemma interp1_curve (x : R) (xp fp : list R) : ascending xp -> List.length fp = List.length xp -> (2 <= List.length xp)%nat ->
  hd 0 xp <= x <= last xp 0 -> hd 0 xp < last xp 0 ->
  exists y : R, @interp1 Rnum x xp fp = OK y /\ on_curve xp fp x y /\
    (forall k, (k < List.length xp)%nat -> x = xp@k -> (forall j, (j < k)%nat -> xp@j <> xp@k) -> y = fp@k).
Proof.
  intros A L n2 H Hne. destruct (interp1_eq x xp fp A L n2 H) as [[E ->]|(k & Hk & Hx & Hj & ->)].
  - rewrite hd_nth, last_nth in Hne. eexists; split; [reflexivity|].
    assert (Ev : line x xp@(List.length xp - 1) xp@0 fp@(List.length xp - 1) fp@0 = fp@0).
    { rewrite E. apply line_right. lra. }
    split; [left; exists 0%nat; repeat split; auto; lia|].
    intros k Hk Ek Hf. destruct k; [exact Ev|]. exfalso. apply (Hf 0%nat); [lia|]. congruence.
  - eexists; split; [reflexivity|]. split.
    + destruct (Req_dec x (xp@(S k))) as [Q|Q].
      * left. exists (S k). split; [exact Hk|]. split; [exact Q|]. rewrite Q. apply line_right. lra.
      * right. exists k. split; [exact Hk|]. split; [left; lra|]. unfold line. field. lra.
    + intros i Hi Ei Hf. assert (i = S k) as ->.
      { destruct (lt_eq_lt_dec i (S k)) as [[Q|Q]|Q]; [|exact Q|].
        - specialize (Hj i ltac:(lia)). lra.
        - exfalso. apply (Hf (S k) Q). pose proof (ascending_le xp (S k) i A ltac:(lia)). lra. }
      rewrite Ei. apply line_right. lra.
Qed.
Lemma on_curve_rev xp fp x y : List.length fp = List.length xp -> on_curve (rev xp) (rev fp) x y -> on_curve xp fp x y.
Proof.
  intros L [(k & Hk & Ex & Ey)|(k & Hk & Hx & Hy)]; rewrite rev_length in Hk.
  - left. rewrite nth_rev in Ex by lia. rewrite nth_rev in Ey by lia. rewrite L in Ey. eexists. split; [|split; eassumption]. lia.
  - right. rewrite !nth_rev in Hx by lia. rewrite !nth_rev in Hy by lia. rewrite L in Hy.
    exists (List.length xp - S (S k))%nat. replace (S (List.length xp - S (S k))) with (List.length xp - S k)%nat by lia.
    split; [lia|]. split; [tauto|]. lra.
Qed.

(** ** All points *)
Lemma mapM_Forall2 {A B} (f : A -> res B) (P : A -> B -> Prop) l :
  Forall (fun a => exists b, f a = OK b /\ P a b) l -> exists r, mapM f l = OK r /\ Forall2 P l r.
Proof.
  induction 1 as [|a l (b & E & Pb) _ (r & IH & F)]; [exists []; split; [reflexivity|constructor]|].
  exists (b :: r). cbn. rewrite E. cbn. rewrite IH. cbn. split; [reflexivity|now constructor].
Qed.
Lemma existsb_false {A} (f : A -> bool) l : existsb f l = false <-> Forall (fun a => f a = false) l.
Proof.
  induction l as [|a l IH]; cbn; [split; constructor|]. rewrite orb_false_iff, IH. split; [intros []; now constructor|intros H; now inversion H].
Qed.
Lemma flip_lens n d cols : rect n cols -> rect n (map (flip d) cols).
Proof.
  intros H. apply Forall_map. eapply Forall_impl; [|exact H]. intros [[x xp] fp]; destruct d; cbn; [|tauto]. now rewrite !rev_length.
Qed.
Lemma flip_monotone d (c : @icol Rnum) : ascending (snd (fst (flip d c))) <-> monotone d (snd (fst c)).
Proof. destruct c as [[x xp] fp], d; cbn; [symmetry; apply descends_rev|reflexivity]. Qed.
Lemma hd_rev (l : list R) : hd 0 (rev l) = last l 0.
Proof. destruct l as [|a l] using rev_ind; [reflexivity|]. now rewrite rev_app_distr, last_last. Qed.
Lemma last_rev (l : list R) : last (rev l) 0 = hd 0 l.
Proof. rewrite <- (rev_involutive l) at 2. symmetry. apply hd_rev. Qed.
Lemma flip_ends d (x : R) (xp fp : list R) : let c' := flip (N := Rnum) d (x, xp, fp) in
  fst (fst c') = x /\ hd 0 (snd (fst c')) = lowest d xp /\ last (snd (fst c')) 0 = highest d xp.
Proof. destruct d; cbn; [|tauto]. now rewrite hd_rev, last_rev. Qed.

Lemma diffs_all (cols : list (@icol Rnum)) :
  forallb (fun v => @nle Rnum n0 v) (concat (map (fun c => @ndiffs Rnum (snd (fst c))) cols)) = true
  <-> Forall (fun c : @icol Rnum => ascending (snd (fst c))) cols.
Proof.
  induction cols as [|c cols IH]; [split; [constructor|reflexivity]|]. cbn [map concat].
  rewrite forallb_app, andb_true_iff, IH, ndiffs_ascending. split; [intros []; now constructor|intros H; now inversion H].
Qed.
Definition outside d (c : @icol Rnum) := let '(x, xp, _) := c in x < lowest d xp \/ highest d xp < x.

Lemma lo_false (x : R) (xp : list R) : @nlt Rnum x (@hd Rnum n0 xp) = false -> hd 0 xp <= x.
Proof. cbn -[hd]. change (@n0 Rnum) with 0. destruct (Rltb_spec x (hd 0 xp)); [discriminate|lra]. Qed.
Lemma lo_true (x : R) (xp : list R) : @nlt Rnum x (@hd Rnum n0 xp) = true -> x < hd 0 xp.
Proof. cbn -[hd]. change (@n0 Rnum) with 0. destruct (Rltb_spec x (hd 0 xp)); [lra|discriminate]. Qed.
Lemma hi_false (x : R) (xp : list R) : @nlt Rnum (@last Rnum xp n0) x = false -> x <= last xp 0.
Proof. cbn -[last]. change (@n0 Rnum) with 0. destruct (Rltb_spec (last xp 0) x); [discriminate|lra]. Qed.
Lemma hi_true (x : R) (xp : list R) : @nlt Rnum (@last Rnum xp n0) x = true -> last xp 0 < x.
Proof. cbn -[last]. change (@n0 Rnum) with 0. destruct (Rltb_spec (last xp 0) x); [lra|discriminate]. Qed.
Lemma all_points n (cols : list (@icol Rnum)) : (2 <= n)%nat -> rect n cols -> Forall (fun c : @icol Rnum => ascending (snd (fst c))) cols ->
  existsb (fun c : @icol Rnum => let '(x, xp, _) := c in nlt x (hd n0 xp)) cols = false ->
  existsb (fun c : @icol Rnum => let '(x, xp, _) := c in nlt (last xp n0) x) cols = false ->
  exists r, mapM (fun c : @icol Rnum => let '(x, xp, fp) := c in interp1 x xp fp) cols = OK r.
Proof.
  intros n2 HR Ed E1 E2.
  destruct (mapM_Forall2 (fun c : @icol Rnum => let '(x, xp, fp) := c in interp1 x xp fp) (fun _ _ => True) cols) as (r & E3 & _); [|eauto].
  apply existsb_false in E1. apply existsb_false in E2. unfold rect in HR. rewrite Forall_forall in *. intros [[x xp] fp] Hin.
  specialize (E1 _ Hin). specialize (E2 _ Hin). specialize (HR _ Hin). specialize (Ed _ Hin). cbn in HR, Ed.
  apply lo_false in E1. apply hi_false in E2.
  destruct (interp1_eq x xp fp Ed ltac:(lia) ltac:(lia) ltac:(lra)) as [[_ E]|(k & _ & _ & _ & E)]; rewrite E; eauto.
Qed.
(** When it raises what: with at least one point and two nodes, it raises an AssertionError iff
    the coordinates of some point are not monotonic in the stated direction, and otherwise a
    ValueError iff some x lies outside the range of its coordinates. *)
Theorem C50_interpolate_guards n d cols : (2 <= n)%nat -> cols <> [] -> rect n cols ->
  (@interpolate Rnum d cols = Err AssertionError <-> ~ Forall (fun c => monotone d (snd (fst c))) cols) /\
  (@interpolate Rnum d cols = Err ValueError <-> Forall (fun c => monotone d (snd (fst c))) cols /\ Exists (outside d) cols) /\
  ((exists ys, @interpolate Rnum d cols = OK ys) <-> Forall (fun c => monotone d (snd (fst c))) cols /\ ~ Exists (outside d) cols).
Proof.
  intros n2 Hne HR. unfold interpolate.
  assert (HR' := flip_lens n d cols HR).
  assert (HM : Forall (fun c => monotone d (snd (fst c))) cols <-> Forall (fun c : @icol Rnum => ascending (snd (fst c))) (map (flip d) cols)).
  { rewrite Forall_map. split; apply Forall_impl; intros c; apply flip_monotone. }
  assert (HO : Exists (outside d) cols <-> Exists (fun c : @icol Rnum => fst (fst c) < hd 0 (snd (fst c)) \/ last (snd (fst c)) 0 < fst (fst c)) (map (flip d) cols)).
  { rewrite Exists_map. split; apply Exists_impl; intros [[x xp] fp]; destruct (flip_ends d x xp fp) as (E1 & E2 & E3); cbn zeta in *; unfold outside; cbn [num Rnum] in *; rewrite E1, E2, E3; tauto. }
  rewrite HM, HO. assert (Hne' : map (flip d) cols <> []) by (destruct cols; [congruence|discriminate]).
  clear HM HO HR Hne. revert HR' Hne'. generalize (map (flip (N := Rnum) d) cols). clear cols. intros cols HR Hne.
  destruct (concat (map (fun c => @ndiffs Rnum (snd (fst c))) cols)) as [|v vs] eqn:Ed.
  { exfalso. destruct cols as [|[[x xp] fp] cols]; [congruence|]. inversion HR as [|? ? [L _] _]; subst. cbn in n2, Ed.
    destruct xp as [|a [|b xp]]; cbn in *; try lia. discriminate. }
  rewrite <- Ed. clear Ed v vs. destruct (forallb _ _) eqn:Ed; cbn [negb].
  2: { assert (HN : ~ Forall (fun c : @icol Rnum => ascending (snd (fst c))) cols) by (intros H; apply diffs_all in H; cbn [num Rnum] in *; congruence).
    split; [tauto|]. split; split; try tauto; try discriminate. intros [? ?]; discriminate. }
  apply diffs_all in Ed. split; [|split].
  - split; [|tauto]. intros E. exfalso.
    destruct (existsb _ cols) eqn:E1; [discriminate|]. destruct (existsb (fun c : @icol Rnum => let '(x, xp, _) := c in nlt (last xp n0) x) cols) eqn:E2; [discriminate|].
    destruct (all_points n cols n2 HR Ed E1 E2) as [r E3]. congruence.
  - split.
    + intros E. split; [exact Ed|].
      destruct (existsb _ cols) eqn:E1.
      { apply existsb_exists in E1. destruct E1 as ([[x xp] fp] & Hin & E1). apply Exists_exists. eexists; split; [exact Hin|]. left. now apply lo_true. }
      destruct (existsb (fun c : @icol Rnum => let '(x, xp, _) := c in nlt (last xp n0) x) cols) eqn:E2.
      { apply existsb_exists in E2. destruct E2 as ([[x xp] fp] & Hin & E2). apply Exists_exists. eexists; split; [exact Hin|]. right. now apply hi_true. }
      exfalso.
      destruct (all_points n cols n2 HR Ed E1 E2) as [r E3]. congruence.
    + intros [_ H]. apply Exists_exists in H. destruct H as ([[x xp] fp] & Hin & H).
      destruct (existsb _ cols) eqn:E1; [reflexivity|]. apply existsb_false in E1. rewrite Forall_forall in E1. specialize (E1 _ Hin). apply lo_false in E1. cbn [fst snd] in H.
      destruct (existsb (fun c : @icol Rnum => let '(x, xp, _) := c in nlt (last xp n0) x) cols) eqn:E2; [reflexivity|].
      apply existsb_false in E2. rewrite Forall_forall in E2. specialize (E2 _ Hin). apply hi_false in E2. exfalso. cbn [num Rnum] in *. lra.
  - split.
    + intros [ys E]. split; [exact Ed|]. intros H. apply Exists_exists in H. destruct H as ([[x xp] fp] & Hin & H). cbn [fst snd] in H.
      destruct (existsb _ cols) eqn:E1 in E; [discriminate|]. apply existsb_false in E1. rewrite Forall_forall in E1. specialize (E1 _ Hin). apply lo_false in E1.
      destruct (existsb (fun c : @icol Rnum => let '(x, xp, _) := c in nlt (last xp n0) x) cols) eqn:E2 in E; [discriminate|].
      apply existsb_false in E2. rewrite Forall_forall in E2. specialize (E2 _ Hin). apply hi_false in E2. cbn [num Rnum] in *. lra.
    + intros [_ HO]. destruct (existsb _ cols) eqn:E1.
      { exfalso. apply HO. apply existsb_exists in E1. destruct E1 as ([[x xp] fp] & Hin & E1). apply Exists_exists. eexists; split; [exact Hin|]. left. now apply lo_true. }
      destruct (existsb (fun c : @icol Rnum => let '(x, xp, _) := c in nlt (last xp n0) x) cols) eqn:E2.
      { exfalso. apply HO. apply existsb_exists in E2. destruct E2 as ([[x xp] fp] & Hin & E2). apply Exists_exists. eexists; split; [exact Hin|]. right. now apply hi_true. }
      exact (all_points n cols n2 HR Ed E1 E2).
Qed.

Lemma mapM_out {A B} (f : A -> res B) l r : mapM f l = OK r -> Forall2 (fun a b => f a = OK b) l r.
Proof.
  revert r. induction l as [|a l IH]; intros r E; [cbn in E; injection E as <-; constructor|].
  cbn in E. destruct (f a) as [b|] eqn:Ea; [|discriminate]. cbn in E. destruct (mapM f l) as [r'|]; [|discriminate]. cbn in E. injection E as <-.
  constructor; [exact Ea|now apply IH].
Qed.
Lemma Forall2_map_l {A B C} (f : A -> B) (P : B -> C -> Prop) l r : Forall2 P (map f l) r -> Forall2 (fun a => P (f a)) l r.
Proof. revert r. induction l as [|a l IH]; intros r H; inversion H; subst; constructor; auto. Qed.
Lemma Forall2_impl' {A B} (Q : A -> Prop) (P P' : A -> B -> Prop) l r : Forall Q l -> (forall a b, Q a -> P a b -> P' a b) -> Forall2 P l r -> Forall2 P' l r.
Proof. intros HQ H. induction 1; inversion HQ; subst; constructor; auto. Qed.

(** What it returns: for every point a value of the piecewise linear curve through the nodes,
    at a node the value of that node (of the first such node, seen from the lowest coordinate). *)
Theorem C50_interpolate_value n d cols ys : (2 <= n)%nat -> rect n cols ->
  Forall (fun c : @icol Rnum => lowest d (snd (fst c)) < highest d (snd (fst c))) cols ->
  @interpolate Rnum d cols = OK ys ->
  Forall2 (fun (c : @icol Rnum) y => let '(x, xp, fp) := c in
    on_curve xp fp x y /\
    (forall k, (k < n)%nat -> x = xp@k -> (forall j, (j < n)%nat -> j <> k -> xp@j <> xp@k) -> y = fp@k)) cols ys.
Proof.
  intros n2 HR HD E. unfold interpolate in E.
  destruct (concat _) as [|v vs] eqn:Ed; [discriminate|]. rewrite <- Ed in E. clear Ed v vs.
  destruct (forallb _ _) eqn:Ea; [|discriminate]. cbn [negb] in E. apply diffs_all in Ea.
  destruct (existsb _ _) eqn:E1 in E; [discriminate|]. destruct (existsb (fun c : @icol Rnum => let '(x, xp, _) := c in nlt (last xp n0) x) _) eqn:E2 in E; [discriminate|].
  apply existsb_false in E1. apply existsb_false in E2. rewrite Forall_map in Ea, E1, E2.
  apply mapM_out, Forall2_map_l in E.
  revert E. apply Forall2_impl' with (Q := fun c : @icol Rnum => (List.length (snd (fst c)) = n /\ List.length (snd c) = n) /\
    lowest d (snd (fst c)) < highest d (snd (fst c)) /\ ascending (snd (fst (flip d c))) /\
    (let '(x, xp, _) := flip d c in @nlt Rnum x (hd n0 xp)) = false /\ (let '(x, xp, _) := flip d c in @nlt Rnum (last xp n0) x) = false).
  { unfold rect in HR. rewrite Forall_forall in *. intros c Hc. split; [now apply HR|]. split; [now apply HD|]. split; [now apply Ea|]. split; [exact (E1 c Hc)|exact (E2 c Hc)]. }
  clear -n2. intros [[x xp] fp] y ((L1 & L2) & HD & HA & H1 & H2) Ey.
  assert (Hd : hd 0 (snd (fst (flip (N := Rnum) d (x, xp, fp)))) < last (snd (fst (flip (N := Rnum) d (x, xp, fp)))) 0).
  { destruct (flip_ends d x xp fp) as (_ & E2 & E3). cbn zeta in *; cbn [num Rnum] in *. rewrite E2, E3. exact HD. }
  destruct d; cbn [flip fst snd lowest highest num Rnum] in *.
  - apply lo_false in H1. apply hi_false in H2. cbn [num Rnum] in *.
    destruct (interp1_curve x (rev xp) (rev fp)) as (y' & E' & C & K); try assumption; try (rewrite ?rev_length; lia); try lra.
    assert (y' = y) as -> by congruence. split; [apply on_curve_rev; [lia|exact C]|].
    intros k Hk Ek Hf. specialize (K (n - S k)%nat). rewrite rev_length in K. rewrite !nth_rev in K by lia. rewrite L1, L2 in K.
    replace (n - S (n - S k))%nat with k in K by lia. apply K; [lia|exact Ek|]. intros j Hj. rewrite nth_rev by lia. rewrite L1. apply Hf; lia.
  - apply lo_false in H1. apply hi_false in H2. cbn [num Rnum] in *.
    destruct (interp1_curve x xp fp) as (y' & E' & C & K); try assumption; try lia; try lra.
    assert (y' = y) as -> by congruence. split; [exact C|]. intros k Hk Ek Hf. apply K; [lia|exact Ek|]. intros j Hj. apply Hf; lia.
Qed.
(** Such a value lies between the values of the two enclosing nodes, in particular within the
    range of the data. *)
Theorem C50_bounded xp fp x y : List.length fp = List.length xp -> on_curve xp fp x y ->
  (forall k, (S k < List.length xp)%nat -> xp@k < x < xp@(S k) \/ xp@(S k) < x < xp@k -> ascending xp \/ descends xp ->
     Rmin (fp@k) (fp@(S k)) <= y <= Rmax (fp@k) (fp@(S k))) /\
  (exists i j, (i < List.length fp)%nat /\ (j < List.length fp)%nat /\ fp@i <= y <= fp@j).
Proof.
  intros L C.
  assert (Seg : forall k, (S k < List.length xp)%nat -> (xp@k < x < xp@(S k) \/ xp@(S k) < x < xp@k) ->
     (y - fp@k) * (xp@(S k) - xp@k) = (fp@(S k) - fp@k) * (x - xp@k) -> Rmin (fp@k) (fp@(S k)) <= y <= Rmax (fp@k) (fp@(S k))).
  { intros k _ Hx Hy. set (t := (x - xp@k) / (xp@(S k) - xp@k)).
    assert (Ht : 0 <= t <= 1).
    { unfold t. destruct Hx as [Hx|Hx].
      - split; [apply Rmult_le_pos; [lra|]; apply Rlt_le, Rinv_0_lt_compat; lra|]. apply Rmult_le_reg_r with (xp@(S k) - xp@k); [lra|]. field_simplify; lra.
      - replace ((x - xp@k) / (xp@(S k) - xp@k)) with ((xp@k - x) / (xp@k - xp@(S k))) by (field; lra).
        split; [apply Rmult_le_pos; [lra|]; apply Rlt_le, Rinv_0_lt_compat; lra|]. apply Rmult_le_reg_r with (xp@k - xp@(S k)); [lra|]. field_simplify; lra. }
    assert (Ey : y = fp@k + (fp@(S k) - fp@k) * t).
    { unfold t. apply Rmult_eq_reg_r with (xp@(S k) - xp@k); [|lra]. field_simplify; lra. }
    rewrite Ey. unfold Rmin, Rmax. destruct (Rle_dec (fp@k) (fp@(S k))); nra. }
  split.
  - intros k Hk Hx HM. destruct C as [(i & Hi & Ex & _)|(i & Hi & Hxi & Hy)].
    + exfalso. destruct HM as [A|A].
      * destruct (le_lt_dec i k); [pose proof (ascending_le xp i k A ltac:(lia))|pose proof (ascending_le xp (S k) i A ltac:(lia))]; pose proof (A k Hk); lra.
      * apply descends_rev in A. assert (G : forall a b, (a <= b < List.length xp)%nat -> xp@b <= xp@a).
        { intros a b Hab. pose proof (ascending_le _ (List.length xp - S b) (List.length xp - S a) A) as Q. rewrite rev_length in Q. specialize (Q ltac:(lia)).
          rewrite !nth_rev in Q by lia. replace (List.length xp - S (List.length xp - S b))%nat with b in Q by lia. now replace (List.length xp - S (List.length xp - S a))%nat with a in Q by lia. }
        destruct (le_lt_dec i k); [pose proof (G i k ltac:(lia))|pose proof (G (S k) i ltac:(lia))]; pose proof (G k (S k) ltac:(lia)); lra.
    + assert (i = k) as ->; [|now apply Seg]. destruct HM as [A|A].
      * destruct (lt_eq_lt_dec i k) as [[Q|Q]|Q]; [|exact Q|]; exfalso.
        -- pose proof (ascending_le xp (S i) k A ltac:(lia)). pose proof (A k Hk). pose proof (A i Hi). lra.
        -- pose proof (ascending_le xp (S k) i A ltac:(lia)). pose proof (A k Hk). pose proof (A i Hi). lra.
      * apply descends_rev in A. assert (G : forall a b, (a <= b < List.length xp)%nat -> xp@b <= xp@a).
        { intros a b Hab. pose proof (ascending_le _ (List.length xp - S b) (List.length xp - S a) A) as Q. rewrite rev_length in Q. specialize (Q ltac:(lia)).
          rewrite !nth_rev in Q by lia. replace (List.length xp - S (List.length xp - S b))%nat with b in Q by lia. now replace (List.length xp - S (List.length xp - S a))%nat with a in Q by lia. }
        destruct (lt_eq_lt_dec i k) as [[Q|Q]|Q]; [|exact Q|]; exfalso.
        -- pose proof (G (S i) k ltac:(lia)). pose proof (G k (S k) ltac:(lia)). pose proof (G i (S i) ltac:(lia)). lra.
        -- pose proof (G (S k) i ltac:(lia)). pose proof (G k (S k) ltac:(lia)). pose proof (G i (S i) ltac:(lia)). lra.
  - destruct C as [(k & Hk & _ & ->)|(k & Hk & Hx & Hy)]; [exists k, k; repeat split; lia || lra|].
    specialize (Seg k Hk Hx Hy). unfold Rmin, Rmax in Seg. destruct (Rle_dec (fp@k) (fp@(S k))); [exists k, (S k)|exists (S k), k]; repeat split; lia || lra.
Qed.

(** ** No division by zero *)
Definition xcol (c : @icol Rnum) : @icol XRnum := let '(x, xp, fp) := c in (Fin x, map Fin xp, map Fin fp).
Definition fmap {A B} (f : A -> B) (r : res A) : res B := match r with OK a => OK (f a) | Err e => Err e end.
Lemma xr_lt_fin a b : xr_lt (Fin a) (Fin b) = Rltb a b.
Proof.
  unfold xr_lt. cbn. destruct (Rleb_spec a b), (Reqb_spec a b), (Rltb_spec a b); cbn; try reflexivity; exfalso; lra.
Qed.
Lemma x_filter x xp : List.length (filter (fun y => xr_lt y (Fin x)) (map Fin xp)) = below x xp.
Proof. induction xp as [|a xp IH]; [reflexivity|]. cbn [map filter]. rewrite xr_lt_fin. destruct (Rltb a x); cbn; now rewrite IH. Qed.
Lemma x_npidx (l : list R) k : @npidx XRnum (map Fin l) k = fmap Fin (@npidx Rnum l k).
Proof.
  unfold npidx. cbn [num Rnum XRnum]. rewrite map_length. destruct (Z.leb 0 k && Z.ltb k _)%bool; cbn [fmap].
  - f_equal. change (@n0 XRnum) with (Fin 0). apply map_nth.
  - destruct (_ && _)%bool; cbn; [|reflexivity]. f_equal. change (@n0 XRnum) with (Fin 0). apply map_nth.
Qed.
Lemma x_ndiffs (l : list R) : @ndiffs XRnum (map Fin l) = map Fin (@ndiffs Rnum l).
Proof. induction l as [|a [|b l] IH]; [reflexivity|reflexivity|]. change (@ndiffs XRnum (map Fin (a :: b :: l))) with (Fin (b - a) :: @ndiffs XRnum (map Fin (b :: l))). rewrite IH. reflexivity. Qed.
Lemma x_flip d c : flip d (xcol c) = xcol (flip d c).
Proof. destruct c as [[x xp] fp], d; cbn; [now rewrite !map_rev|reflexivity]. Qed.
Lemma x_interp1 (x : R) (xp fp : list R) : ascending xp -> List.length fp = List.length xp -> (2 <= List.length xp)%nat ->
  hd 0 xp <= x <= last xp 0 -> hd 0 xp < last xp 0 ->
  @interp1 XRnum (Fin x) (map Fin xp) (map Fin fp) = fmap Fin (@interp1 Rnum x xp fp).
Proof.
  intros A L n2 H Hne. destruct (interp1_eq x xp fp A L n2 H) as [[E E1]|(k & Hk & Hx & Hj & E1)]; rewrite E1; unfold interp1 in *; cbn [nlt XRnum Rnum num] in *;
    rewrite x_filter; rewrite !x_npidx in *.
  - assert (B : below x xp = 0%nat).
    { destruct (below x xp) eqn:Q; [reflexivity|]. exfalso. pose proof (below_le x xp). destruct (below_spec x xp A 0%nat ltac:(lia)) as [B _]. specialize (B ltac:(lia)). lra. }
    rewrite B in *. change (Z.of_nat 0 - 1)%Z with (-1)%Z in *. rewrite !npidx_m1 in * by lia. rewrite !npidx_nat in * by lia. cbn [fmap bind] in *.
    cbn [nadd nsub nmul ndiv XRnum xr_add xr_sub xr_mul xr_div]. rewrite hd_nth, last_nth in Hne.
    destruct (Reqb_spec (xp@0 - xp@(List.length xp - 1)) 0); [lra|]. cbn. rewrite L. reflexivity.
  - assert (B : below x xp = S k).
    { pose proof (below_le x xp). destruct (lt_eq_lt_dec (below x xp) (S k)) as [[Q|Q]|Q]; [|exact Q|]; exfalso.
      - destruct (below_spec x xp A (below x xp) ltac:(lia)) as [_ B]. specialize (B ltac:(lia)). specialize (Hj (below x xp) ltac:(lia)). lra.
      - destruct (below_spec x xp A (S k) Hk) as [B _]. specialize (B ltac:(lia)). lra. }
    rewrite B in *. replace (Z.of_nat (S k) - 1)%Z with (Z.of_nat k) in * by lia. rewrite !npidx_nat in * by lia. cbn [fmap bind] in *.
    cbn [nadd nsub nmul ndiv XRnum xr_add xr_sub xr_mul xr_div].
    destruct (Reqb_spec (xp@(S k) - xp@k) 0); [lra|]. reflexivity.
Qed.
(** With infinities and nan as values (IEEE rules for division by zero), finite input always
    gives a finite result, the same as in exact real arithmetic, unless the coordinates of some
    point all coincide. *)
Theorem C50_no_division_by_zero n d cols : (2 <= n)%nat -> rect n cols ->
  Forall (fun c : @icol Rnum => lowest d (snd (fst c)) < highest d (snd (fst c))) cols ->
  @interpolate XRnum d (map xcol cols) = fmap (map Fin) (@interpolate Rnum d cols).
Proof.
  intros n2 HR HD. unfold interpolate.
  assert (HR' := flip_lens n d cols HR).
  assert (HD' : Forall (fun c : @icol Rnum => hd 0 (snd (fst c)) < last (snd (fst c)) 0) (map (flip d) cols)).
  { rewrite Forall_map. eapply Forall_impl; [|exact HD]. intros [[x xp] fp]; destruct (flip_ends d x xp fp) as (E1 & E2 & E3); cbn zeta in *; cbn [num Rnum] in *; rewrite E2, E3; tauto. }
  assert (EM : map (flip (N := XRnum) d) (map xcol cols) = map xcol (map (flip (N := Rnum) d) cols)) by (rewrite !map_map; apply map_ext, x_flip).
  rewrite EM. clear EM.
  clear HR HD. revert HR' HD'. generalize (map (flip (N := Rnum) d) cols). clear cols. intros cols HR HD.
  assert (Ed : concat (map (fun c => @ndiffs XRnum (snd (fst c))) (map xcol cols)) = map Fin (concat (map (fun c => @ndiffs Rnum (snd (fst c))) cols))).
  { rewrite map_map, concat_map, map_map. f_equal. apply map_ext. intros [[x xp] fp]. cbn. apply x_ndiffs. }
  rewrite Ed. clear Ed.
  assert (Ef : forall l : list R, forallb (fun v => @nle XRnum n0 v) (map Fin l) = forallb (fun v => @nle Rnum n0 v) l).
  { induction l as [|a l IH]; [reflexivity|]. cbn [map forallb]. rewrite IH. reflexivity. }
  rewrite Ef. destruct (concat _) as [|v vs] eqn:Q; [reflexivity|]. cbn [map]. rewrite <- Q. clear Q.
  destruct (forallb _ _) eqn:Ea; [|reflexivity]. apply diffs_all in Ea. cbn [negb].
  assert (E1 : existsb (fun c : @icol XRnum => let '(x, xp, _) := c in nlt x (hd n0 xp)) (map xcol cols) = existsb (fun c : @icol Rnum => let '(x, xp, _) := c in nlt x (hd n0 xp)) cols).
  { clear. induction cols as [|[[x xp] fp] cols IH]; [reflexivity|]. cbn [map existsb xcol]. rewrite IH. f_equal.
    transitivity (xr_lt (Fin x) (Fin (hd 0 xp))); [destruct xp; reflexivity|apply xr_lt_fin]. }
  assert (E2 : existsb (fun c : @icol XRnum => let '(x, xp, _) := c in nlt (last xp n0) x) (map xcol cols) = existsb (fun c : @icol Rnum => let '(x, xp, _) := c in nlt (last xp n0) x) cols).
  { clear. induction cols as [|[[x xp] fp] cols IH]; [reflexivity|]. cbn [map existsb xcol]. rewrite IH. f_equal.
    transitivity (xr_lt (Fin (last xp 0)) (Fin x)); [|apply xr_lt_fin]. cbn [nlt XRnum]. f_equal. clear. induction xp as [|a [|b xp] IH]; [reflexivity|reflexivity|]. exact IH. }
  rewrite E1, E2. destruct (existsb _ cols) eqn:F1; [reflexivity|]. destruct (existsb (fun c : @icol Rnum => let '(x, xp, _) := c in nlt (last xp n0) x) cols) eqn:F2; [reflexivity|].
  apply existsb_false in F1. apply existsb_false in F2. clear E1 E2 Ef.
  induction cols as [|[[x xp] fp] cols IH]; [reflexivity|].
  inversion HR as [|? ? [La Lb] HR2]; subst. inversion HD as [|? ? HD1 HD2]; subst. inversion Ea as [|? ? A1 A2]; subst. inversion F1 as [|? ? G1 G2]; subst. inversion F2 as [|? ? K1 K2]; subst.
  apply lo_false in G1. apply hi_false in K1. cbn [fst snd num Rnum] in *.
  cbn [map mapM xcol]. rewrite x_interp1 by (assumption || lia || lra). rewrite IH by assumption.
  destruct (@interp1 Rnum x xp fp); [|reflexivity]. cbn. destruct (mapM _ cols); reflexivity.
Qed.

(** ** The theorems are not vacuous *)
Example C50_witness : let cols := [(4, [3; 5; 9], [1; 2; 7]); (9, [3; 3; 9], [1; 2; 7])] in
  rect 3 cols /\ Forall (fun c : @icol Rnum => lowest false (snd (fst c)) < highest false (snd (fst c))) cols /\
  exists ys, @interpolate Rnum false cols = OK ys.
Proof.
  cbn zeta. assert (R1 : rect 3 [(4, [3; 5; 9], [1; 2; 7]); (9, [3; 3; 9], [1; 2; 7])]) by (repeat constructor).
  split; [exact R1|]. split; [repeat constructor; cbn; lra|].
  refine (proj2 (proj2 (proj2 (C50_interpolate_guards 3 false _ _ _ R1))) _); [lia|discriminate|]. split.
  - constructor; [|constructor; [|constructor]]; intros [|[|i]] Hi; cbn in *; lra || lia.
  - intros H. inversion H as [? ? O|? ? H2]; subst; [cbn in O; lra|]. inversion H2 as [? ? O|? ? H3]; subst; [cbn in O; lra|]. inversion H3.
Qed.
(** In floating point the value at the lowest node is not exact: there [lower] is -1, the formula
    is evaluated from the highest node, and rounding can lose the value of the lowest one. *)
Example lowest_node_rounding :
  @interpolate F64 false [(f64_ofZ 0, [f64_ofZ 0; f64_ofZ 1], [f64_ofZ 1; f64_ofZ (2 ^ 60)])] = OK [f64_ofZ 0].
Proof. vm_compute. reflexivity. Qed.
