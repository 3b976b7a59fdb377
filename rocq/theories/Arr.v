(** * numpy arrays

    Two-dimensional numpy arrays: a shape and a function from indices.  A shape
    mismatch raises (value [Err]).  Scalars and column vectors [a[:, None]] are arrays
    of shape (1,1) and (M,1), so that numpy's broadcasting rules cover them. *)
From Coq Require Import Arith Lia Bool List.
From Verif Require Import Num.
Import ListNotations.

(** Python exceptions as values. *)
Inductive exn : Type :=
| ValueError | TypeError | IndexError | KeyError | NameError | FileNotFoundError
| AssertionError | OtherError.

Inductive res (A : Type) : Type := OK (a : A) | Err (e : exn).
Arguments OK {A}. Arguments Err {A}.

Definition bind {A B} (m : res A) (f : A -> res B) : res B :=
  match m with OK a => f a | Err e => Err e end.
Notation "'do' x <- m ; k" := (bind m (fun x => k))
  (at level 200, x pattern, m at level 100, k at level 200, right associativity).

Record arr (T : Type) := mkarr { nr : nat; nc : nat; at_ : nat -> nat -> T }.
Arguments mkarr {T}. Arguments nr {T}. Arguments nc {T}. Arguments at_ {T}.

Definition marr (T : Type) := res (arr T).   (* an array expression: may raise *)

(** numpy broadcasting of one dimension: equal, or one of them is 1. *)
Definition bdim (d e : nat) : option nat :=
  if Nat.eqb d e then Some d
  else if Nat.eqb d 1 then Some e
  else if Nat.eqb e 1 then Some d
  else None.
Definition bidx (d i : nat) : nat := if Nat.eqb d 1 then 0 else i.

(** elementwise binary operation with broadcasting *)
Definition bop {T U V} (f : T -> U -> V) (x : marr T) (y : marr U) : marr V :=
  do a <- x;
  do b <- y;
  match bdim (nr a) (nr b), bdim (nc a) (nc b) with
  | Some r, Some c =>
      OK (mkarr r c (fun i j => f (at_ a (bidx (nr a) i) (bidx (nc a) j))
                                  (at_ b (bidx (nr b) i) (bidx (nc b) j))))
  | _, _ => Err ValueError
  end.
(** elementwise unary operation *)
Definition uop {T V} (f : T -> V) (x : marr T) : marr V :=
  do a <- x; OK (mkarr (nr a) (nc a) (fun i j => f (at_ a i j))).
(** np.where(c, x, y) *)
Definition where_ {T} (c : marr bool) (x y : marr T) : marr T :=
  bop (fun (b : bool) (p : T * T) => if b then fst p else snd p) c (bop pair x y).
(** a Python scalar used in an array expression *)
Definition scal {T} (k : T) : marr T := OK (mkarr 1 1 (fun _ _ => k)).
(** v[:, None] for a vector of length m *)
Definition colvec {T} (m : nat) (v : nat -> T) : marr T := OK (mkarr m 1 (fun i _ => v i)).
Definition val {T} (a : arr T) : marr T := OK a.

(** Basic slices used by the code: [:], [:-1], [1:], [1:-1] *)
Inductive slc := All | ButLast | ButFirst | Inner.
Definition slen (s : slc) (n : nat) : nat :=
  match s with All => n | ButLast => n - 1 | ButFirst => n - 1 | Inner => n - 2 end.
Definition soff (s : slc) (i : nat) : nat :=
  match s with All => i | ButLast => i | ButFirst => S i | Inner => S i end.
Definition sl {T} (rs cs : slc) (x : marr T) : marr T :=
  do a <- x;
  OK (mkarr (slen rs (nr a)) (slen cs (nc a)) (fun i j => at_ a (soff rs i) (soff cs j))).

Section NumArr.
  Context {N : NumOps}.
  Notation A := (marr N).

  Definition add := @bop N N N nadd.
  Definition sub := @bop N N N nsub.
  Definition mul := @bop N N N nmul.
  Definition div := @bop N N N ndiv.
  (** operations on two float32 arrays, or on a float32 array and a Python scalar (numpy 2: the scalar does not
      widen the result): computed and rounded to single precision.  For IEEE-754 double rounding through binary64 is
      innocuous for these four operations (53 >= 2 * 24 + 2), so this is the float32 operation. *)
  Definition add32 := @bop N N N (fun x y => nstore (nadd x y)).
  Definition sub32 := @bop N N N (fun x y => nstore (nsub x y)).
  Definition mul32 := @bop N N N (fun x y => nstore (nmul x y)).
  Definition div32 := @bop N N N (fun x y => nstore (ndiv x y)).
  Definition minimum := @bop N N N nmin.
  Definition maximum := @bop N N N nmax.
  Definition neg := @uop N N nopp.
  Definition absolute := @uop N N nabs.
  Definition sign := @uop N N nsign.
  Definition gt := @bop N N bool (fun x y => nlt y x).
  Definition ge := @bop N N bool (fun x y => nle y x).
  Definition lt := @bop N N bool nlt.

  (** core.py l.10-14: np.pad with one ghost row/column on each side.
      mode "wrap" raises on an empty axis. *)
  Definition pad_x_wrap (x : A) : A :=
    do a <- x;
    if Nat.eqb (nc a) 0 then Err ValueError else
    OK (mkarr (nr a) (nc a + 2)
         (fun i j => if Nat.eqb j 0 then at_ a i (nc a - 1)
                     else if Nat.eqb j (nc a + 1) then at_ a i 0
                     else at_ a i (j - 1))).
  Definition pad_y_zero (x : A) : A :=
    do a <- x;
    OK (mkarr (nr a + 2) (nc a)
         (fun i j => if Nat.eqb i 0 || Nat.eqb i (nr a + 1) then n0 else at_ a (i - 1) j)).
  Definition pad_xy_zero (x : A) : A :=
    do a <- x;
    OK (mkarr (nr a + 2) (nc a + 2)
         (fun i j => if Nat.eqb i 0 || Nat.eqb i (nr a + 1)
                        || Nat.eqb j 0 || Nat.eqb j (nc a + 1)
                     then n0 else at_ a (i - 1) (j - 1))).

  (** np.gradient with unit spacing along one axis: second order central differences
      inside, first order one-sided differences at the two ends; needs two elements. *)
  Definition grad1 (n : nat) (v : nat -> N) (k : nat) : N :=
    if Nat.eqb k 0 then nsub (v 1) (v 0)
    else if Nat.eqb k (n - 1) then nsub (v (n - 1)) (v (n - 2))
    else ndiv (nsub (v (k + 1)) (v (k - 1))) n2.
  Definition gradient_x (x : A) : A :=          (* axis = -1 *)
    do a <- x;
    if Nat.ltb (nc a) 2 then Err ValueError else
    OK (mkarr (nr a) (nc a) (fun i j => grad1 (nc a) (fun k => at_ a i k) j)).
  Definition gradient_y (x : A) : A :=          (* axis = -2 *)
    do a <- x;
    if Nat.ltb (nr a) 2 then Err ValueError else
    OK (mkarr (nr a) (nc a) (fun i j => grad1 (nr a) (fun k => at_ a k j) i)).
End NumArr.

Declare Scope arr_scope.
Delimit Scope arr_scope with arr.
Notation "x + y" := (add x y) : arr_scope.
Notation "x - y" := (sub x y) : arr_scope.
Notation "x * y" := (mul x y) : arr_scope.
Notation "x / y" := (div x y) : arr_scope.
Notation "- x" := (neg x) : arr_scope.
Notation "x +' y" := (add32 x y) (at level 50, left associativity) : arr_scope.
Notation "x -' y" := (sub32 x y) (at level 50, left associativity) : arr_scope.
Notation "x *' y" := (mul32 x y) (at level 40, left associativity) : arr_scope.
Notation "x /' y" := (div32 x y) (at level 40, left associativity) : arr_scope.

(** ** Reasoning: [is_arr m r c g] says that the array expression [m] evaluates without
    error to an array of shape (r,c) whose entries are given by [g]. *)
Definition is_arr {T} (m : marr T) (r c : nat) (g : nat -> nat -> T) : Prop :=
  exists a, m = OK a /\ nr a = r /\ nc a = c /\
            forall i j, i < r -> j < c -> at_ a i j = g i j.

Lemma is_arr_ext {T} (m : marr T) r c g g' :
  is_arr m r c g -> (forall i j, i < r -> j < c -> g i j = g' i j) -> is_arr m r c g'.
Proof.
  intros (a & E & Hr & Hc & H) Hg. exists a. repeat split; auto.
  intros i j Hi Hj. rewrite H; auto.
Qed.

Lemma is_arr_val {T} (a : arr T) r c :
  nr a = r -> nc a = c -> is_arr (val a) r c (at_ a).
Proof. intros. exists a. repeat split; auto. Qed.

Lemma is_arr_scal {T} (k : T) : is_arr (scal k) 1 1 (fun _ _ => k).
Proof. eexists; repeat split. Qed.

Lemma is_arr_colvec {T} m (v : nat -> T) : is_arr (colvec m v) m 1 (fun i _ => v i).
Proof. eexists; repeat split. Qed.

Lemma bdim_same d : bdim d d = Some d.
Proof. unfold bdim. now rewrite Nat.eqb_refl. Qed.
Lemma bdim_1l d : bdim 1 d = Some d.
Proof. unfold bdim. destruct (Nat.eqb_spec 1 d); subst; auto. Qed.
Lemma bdim_1r d : bdim d 1 = Some d.
Proof. unfold bdim. destruct (Nat.eqb_spec d 1); subst; auto. Qed.
Lemma bidx_lt d i : i < d -> bidx d i = i.
Proof. unfold bidx. destruct (Nat.eqb_spec d 1); lia. Qed.

Lemma is_arr_bop {T U V} (f : T -> U -> V) x y r c g h :
  is_arr x r c g -> is_arr y r c h ->
  is_arr (bop f x y) r c (fun i j => f (g i j) (h i j)).
Proof.
  intros (a & -> & Hr & Hc & H) (b & -> & Hr' & Hc' & H'). subst.
  unfold bop, bind. rewrite Hr', Hc', !bdim_same.
  eexists; split; [reflexivity|]. cbn. repeat split; auto.
  intros i j Hi Hj. rewrite !bidx_lt by lia. rewrite H, H'; auto.
Qed.
Lemma is_arr_bop_sl {T U V} (f : T -> U -> V) x y r c g h :
  is_arr x 1 1 g -> is_arr y r c h ->
  is_arr (bop f x y) r c (fun i j => f (g 0 0) (h i j)).
Proof.
  intros (a & -> & Hr & Hc & H) (b & -> & Hr' & Hc' & H'). subst.
  unfold bop, bind. rewrite Hr, Hc, !bdim_1l.
  eexists; split; [reflexivity|]. cbn. repeat split; auto.
  intros i j Hi Hj. rewrite !bidx_lt by lia. rewrite H, H'; auto.
Qed.
Lemma is_arr_bop_sr {T U V} (f : T -> U -> V) x y r c g h :
  is_arr x r c g -> is_arr y 1 1 h ->
  is_arr (bop f x y) r c (fun i j => f (g i j) (h 0 0)).
Proof.
  intros (a & -> & Hr & Hc & H) (b & -> & Hr' & Hc' & H'). subst.
  unfold bop, bind. rewrite Hr', Hc', !bdim_1r.
  eexists; split; [reflexivity|]. cbn. repeat split; auto.
  intros i j Hi Hj. rewrite !bidx_lt by lia. rewrite H, H'; auto.
Qed.
Lemma is_arr_bop_cr {T U V} (f : T -> U -> V) x y r c g h :
  is_arr x r c g -> is_arr y r 1 h ->
  is_arr (bop f x y) r c (fun i j => f (g i j) (h i 0)).
Proof.
  intros (a & -> & Hr & Hc & H) (b & -> & Hr' & Hc' & H'). subst.
  unfold bop, bind. rewrite Hr', Hc', bdim_same, bdim_1r.
  eexists; split; [reflexivity|]. cbn. repeat split; auto.
  intros i j Hi Hj. rewrite !bidx_lt by lia.
  change (bidx 1 j) with 0. rewrite H, H'; auto.
Qed.
Lemma is_arr_uop {T V} (f : T -> V) x r c g :
  is_arr x r c g -> is_arr (uop f x) r c (fun i j => f (g i j)).
Proof.
  intros (a & -> & Hr & Hc & H). subst. eexists; split; [reflexivity|]. cbn.
  repeat split; auto. intros. rewrite H; auto.
Qed.
Lemma is_arr_where {T} c (x y : marr T) r k g h q :
  is_arr c r k q -> is_arr x r k g -> is_arr y r k h ->
  is_arr (where_ c x y) r k (fun i j => if q i j then g i j else h i j).
Proof.
  intros Hc Hx Hy. unfold where_.
  eapply is_arr_ext. { eapply is_arr_bop; [eassumption|]. eapply is_arr_bop; eassumption. }
  intros; reflexivity.
Qed.
Lemma is_arr_where_sr {T} c (x y : marr T) r k g h q :
  is_arr c r k q -> is_arr x r k g -> is_arr y 1 1 h ->
  is_arr (where_ c x y) r k (fun i j => if q i j then g i j else h 0 0).
Proof.
  intros Hc Hx Hy. unfold where_.
  eapply is_arr_ext.
  { eapply is_arr_bop; [eassumption|]. eapply is_arr_bop_sr; eassumption. }
  intros; reflexivity.
Qed.
Lemma is_arr_where_sl {T} c (x y : marr T) r k g h q :
  is_arr c r k q -> is_arr x 1 1 g -> is_arr y r k h ->
  is_arr (where_ c x y) r k (fun i j => if q i j then g 0 0 else h i j).
Proof.
  intros Hc Hx Hy. unfold where_.
  eapply is_arr_ext.
  { eapply is_arr_bop; [eassumption|]. eapply is_arr_bop_sl; eassumption. }
  intros; reflexivity.
Qed.
Lemma is_arr_sl {T} rs cs (x : marr T) r c g r' c' :
  is_arr x r c g -> slen rs r = r' -> slen cs c = c' ->
  is_arr (sl rs cs x) r' c' (fun i j => g (soff rs i) (soff cs j)).
Proof.
  intros (a & -> & Hr & Hc & H) E1 E2. subst.
  eexists; split; [reflexivity|]. cbn. repeat split; auto.
  intros i j Hi Hj. apply H.
  - destruct rs; cbn in *; lia.
  - destruct cs; cbn in *; lia.
Qed.

Section NumArrFacts.
  Context {N : NumOps}.

  Lemma is_arr_pad_x_wrap (x : marr N) r c g c' :
    is_arr x r c g -> 0 < c -> c' = c + 2 ->
    is_arr (pad_x_wrap x) r c'
      (fun i j => if Nat.eqb j 0 then g i (c - 1)
                  else if Nat.eqb j (c + 1) then g i 0 else g i (j - 1)).
  Proof.
    intros (a & -> & Hr & Hc & H) Hpos ->. unfold pad_x_wrap, bind.
    destruct (Nat.eqb_spec (nc a) 0); [lia|]. eexists; split; [reflexivity|].
    cbn. rewrite Hc. repeat split; auto. intros i j Hi Hj.
    destruct (Nat.eqb_spec j 0); [apply H; lia|].
    destruct (Nat.eqb_spec j (c + 1)); apply H; lia.
  Qed.
  Lemma is_arr_pad_y_zero (x : marr N) r c g r' :
    is_arr x r c g -> r' = r + 2 ->
    is_arr (pad_y_zero x) r' c
      (fun i j => if Nat.eqb i 0 || Nat.eqb i (r + 1) then n0 else g (i - 1) j).
  Proof.
    intros (a & -> & Hr & Hc & H) ->. eexists; split; [reflexivity|].
    cbn. rewrite Hr. repeat split; auto. intros i j Hi Hj.
    destruct (Nat.eqb_spec i 0); cbn; auto.
    destruct (Nat.eqb_spec i (r + 1)); cbn; auto. apply H; lia.
  Qed.
  Lemma is_arr_pad_xy_zero (x : marr N) r c g r' c' :
    is_arr x r c g -> r' = r + 2 -> c' = c + 2 ->
    is_arr (pad_xy_zero x) r' c'
      (fun i j => if Nat.eqb i 0 || Nat.eqb i (r + 1) || Nat.eqb j 0 || Nat.eqb j (c + 1)
                  then n0 else g (i - 1) (j - 1)).
  Proof.
    intros (a & -> & Hr & Hc & H) -> ->. eexists; split; [reflexivity|].
    cbn. rewrite Hr, Hc. repeat split; auto. intros i j Hi Hj.
    destruct (Nat.eqb_spec i 0); cbn; auto.
    destruct (Nat.eqb_spec i (r + 1)); cbn; auto.
    destruct (Nat.eqb_spec j 0); cbn; auto.
    destruct (Nat.eqb_spec j (c + 1)); cbn; auto. apply H; lia.
  Qed.
  Lemma grad1_ext n (v w : nat -> N) k :
    2 <= n -> k < n -> (forall i, i < n -> v i = w i) -> grad1 n v k = grad1 n w k.
  Proof.
    intros Hn Hk H. unfold grad1.
    destruct (Nat.eqb_spec k 0); [now rewrite !H by lia|].
    destruct (Nat.eqb_spec k (n - 1)); now rewrite !H by lia.
  Qed.
  Lemma is_arr_gradient_x (x : marr N) r c g :
    is_arr x r c g -> 2 <= c ->
    is_arr (gradient_x x) r c (fun i j => grad1 c (g i) j).
  Proof.
    intros (a & -> & Hr & Hc & H) H2. unfold gradient_x, bind.
    destruct (Nat.ltb_spec (nc a) 2); [lia|]. eexists; split; [reflexivity|].
    cbn. rewrite Hc. repeat split; auto. intros i j Hi Hj.
    apply grad1_ext; auto.
  Qed.
  Lemma is_arr_gradient_y (x : marr N) r c g :
    is_arr x r c g -> 2 <= r ->
    is_arr (gradient_y x) r c (fun i j => grad1 r (fun k => g k j) i).
  Proof.
    intros (a & -> & Hr & Hc & H) H2. unfold gradient_y, bind.
    destruct (Nat.ltb_spec (nr a) 2); [lia|]. eexists; split; [reflexivity|].
    cbn. rewrite Hr. repeat split; auto. intros i j Hi Hj.
    apply grad1_ext; auto.
  Qed.
End NumArrFacts.
