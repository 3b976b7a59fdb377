(** * Numbers

    The Python code computes with numpy/xarray floating point numbers.  Every
    numerical definition of the model is written once, for an arbitrary record
    [NumOps] of operations, and is then instantiated:

    - [Rnum]   exact real arithmetic (the algorithm without rounding);
    - [XRnum]  real arithmetic plus inf, -inf and nan with the IEEE-754 rules for
               special values (exact, so no rounding and no overflow);
    - [F64]    IEEE-754 binary64 of the standard library ([SpecFloat]), executable. *)
From Coq Require Import Reals ZArith Bool Lra Lia.
From Coq Require Import Floats.SpecFloat.

Record NumOps := mkNumOps {
  num :> Type;
  nofZ : Z -> num;
  nadd : num -> num -> num;
  nsub : num -> num -> num;
  nmul : num -> num -> num;
  ndiv : num -> num -> num;
  nopp : num -> num;
  nabs : num -> num;
  nle  : num -> num -> bool;   (* Python's  x <= y : false if either is nan *)
  nlt  : num -> num -> bool;   (* Python's  x <  y : false if either is nan *)
  neqb : num -> num -> bool;   (* Python's  x == y : false if either is nan *)
  nstore : num -> num          (* rounding to single precision (float32) *)
}.

Arguments nofZ {N} : rename. Arguments nadd {N} : rename. Arguments nsub {N} : rename.
Arguments nmul {N} : rename. Arguments ndiv {N} : rename. Arguments nopp {N} : rename.
Arguments nabs {N} : rename. Arguments nle {N} : rename. Arguments nlt {N} : rename.
Arguments neqb {N} : rename. Arguments nstore {N} : rename.

Section Derived.
  Context {N : NumOps}.

  (** Python literals *)
  Definition n0 : N := nofZ 0.
  Definition n1 : N := nofZ 1.
  Definition n2 : N := nofZ 2.
  Definition nhalf : N := ndiv n1 n2.       (* 0.5, and  1 / 2 *)

  Definition nisnan (x : N) : bool := negb (neqb x x).

  (** np.minimum / np.maximum propagate nan:
      numpy's  (x <= y || isnan(x)) ? x : y  *)
  Definition nmin (x y : N) : N := if nle x y || nisnan x then x else y.
  Definition nmax (x y : N) : N := if nle y x || nisnan x then x else y.

  (** np.sign: -1, 0, 1, and nan for nan *)
  Definition nsign (x : N) : N :=
    if nlt n0 x then n1 else if nlt x n0 then nopp n1
    else if neqb x n0 then n0 else x.
End Derived.

(** ** Exact reals *)
Definition Rleb (x y : R) : bool := if Rle_dec x y then true else false.
Definition Rltb (x y : R) : bool := if Rlt_dec x y then true else false.
Definition Reqb (x y : R) : bool := if Req_EM_T x y then true else false.

Definition Rnum : NumOps :=
  mkNumOps R IZR Rplus Rminus Rmult Rdiv Ropp Rabs Rleb Rltb Reqb (fun x => x).

(** ** Extended reals with nan *)
Inductive XR : Type := Fin (r : R) | Inf (neg : bool) | NaN.

Definition xr_neg (r : R) : bool := Rltb r 0.

Definition xr_opp (x : XR) : XR :=
  match x with Fin r => Fin (- r)%R | Inf s => Inf (negb s) | NaN => NaN end.
Definition xr_add (x y : XR) : XR :=
  match x, y with
  | NaN, _ | _, NaN => NaN
  | Inf s, Inf t => if Bool.eqb s t then Inf s else NaN
  | Inf s, Fin _ => Inf s
  | Fin _, Inf t => Inf t
  | Fin a, Fin b => Fin (a + b)%R
  end.
Definition xr_sub (x y : XR) : XR :=
  match x, y with
  | Fin a, Fin b => Fin (a - b)%R
  | _, _ => xr_add x (xr_opp y)
  end.
Definition xr_mul (x y : XR) : XR :=
  match x, y with
  | NaN, _ | _, NaN => NaN
  | Inf s, Inf t => Inf (xorb s t)
  | Inf s, Fin b => if Reqb b 0 then NaN else Inf (xorb s (xr_neg b))
  | Fin a, Inf t => if Reqb a 0 then NaN else Inf (xorb (xr_neg a) t)
  | Fin a, Fin b => Fin (a * b)%R
  end.
(** Division by (positive) zero: 0/0 is nan, x/0 is a signed infinity.  Negative zero
    is not represented; no modelled function divides by a negative zero. *)
Definition xr_div (x y : XR) : XR :=
  match x, y with
  | NaN, _ | _, NaN => NaN
  | Inf _, Inf _ => NaN
  | Inf s, Fin b => Inf (xorb s (xr_neg b))
  | Fin _, Inf _ => Fin 0
  | Fin a, Fin b =>
      if Reqb b 0 then (if Reqb a 0 then NaN else Inf (xr_neg a)) else Fin (a / b)%R
  end.
Definition xr_abs (x : XR) : XR :=
  match x with Fin r => Fin (Rabs r) | Inf _ => Inf false | NaN => NaN end.
Definition xr_le (x y : XR) : bool :=
  match x, y with
  | NaN, _ | _, NaN => false
  | Inf true, _ => true
  | _, Inf false => true
  | Fin a, Fin b => Rleb a b
  | _, _ => false
  end.
Definition xr_eq (x y : XR) : bool :=
  match x, y with
  | Inf s, Inf t => Bool.eqb s t
  | Fin a, Fin b => Reqb a b
  | _, _ => false
  end.
Definition xr_lt (x y : XR) : bool := xr_le x y && negb (xr_eq x y).

Definition XRnum : NumOps :=
  mkNumOps XR (fun z => Fin (IZR z)) xr_add xr_sub xr_mul xr_div xr_opp xr_abs
           xr_le xr_lt xr_eq (fun x => x).

(** ** binary64 *)
Definition f64_add := SFadd 53 1024.
Definition f64_sub := SFsub 53 1024.
Definition f64_mul := SFmul 53 1024.
Definition f64_div := SFdiv 53 1024.
Definition f64_ofZ (z : Z) : spec_float := binary_normalize 53 1024 z 0 false.
(** rounding to binary32, and back (the second rounding only restores the binary64 representation) *)
Definition f64_store (x : spec_float) : spec_float :=
  match x with
  | S754_finite s m e =>
      match binary_round 24 128 s m e with
      | S754_finite s' m' e' => binary_round 53 1024 s' m' e'
      | y => y
      end
  | _ => x
  end.
Definition F64 : NumOps :=
  mkNumOps spec_float f64_ofZ f64_add f64_sub f64_mul f64_div SFopp SFabs
           SFleb SFltb SFeqb f64_store.

(** ** Facts *)
Lemma Rleb_spec x y : reflect (x <= y)%R (Rleb x y).
Proof. unfold Rleb; destruct (Rle_dec x y); constructor; auto. Qed.
Lemma Rltb_spec x y : reflect (x < y)%R (Rltb x y).
Proof. unfold Rltb; destruct (Rlt_dec x y); constructor; auto. Qed.
Lemma Reqb_spec x y : reflect (x = y)%R (Reqb x y).
Proof. unfold Reqb; destruct (Req_EM_T x y); constructor; auto. Qed.
Lemma Reqb_refl x : Reqb x x = true.
Proof. destruct (Reqb_spec x x); auto. Qed.

Lemma Rnisnan (x : Rnum) : nisnan x = false.
Proof. unfold nisnan; simpl. now rewrite Reqb_refl. Qed.
Lemma nmin_R (x y : R) : @nmin Rnum x y = Rmin x y.
Proof.
  unfold nmin. rewrite Rnisnan, orb_false_r. simpl. unfold Rleb, Rmin.
  destruct (Rle_dec x y); auto.
Qed.
Lemma nmax_R (x y : R) : @nmax Rnum x y = Rmax x y.
Proof.
  unfold nmax. rewrite Rnisnan, orb_false_r. simpl. unfold Rleb, Rmax.
  destruct (Rle_dec y x), (Rle_dec x y); auto; lra.
Qed.
Lemma n0_R : @n0 Rnum = 0%R. Proof. reflexivity. Qed.
Lemma n1_R : @n1 Rnum = 1%R. Proof. reflexivity. Qed.
Lemma n2_R : @n2 Rnum = 2%R. Proof. reflexivity. Qed.
Lemma nhalf_R : @nhalf Rnum = (1/2)%R. Proof. reflexivity. Qed.

(** Mathematical sign function used by specifications. *)
Definition Rsign (x : R) : R := if Rltb 0 x then 1%R else if Rltb x 0 then (-1)%R else 0%R.
Lemma nsign_R (x : R) : @nsign Rnum x = Rsign x.
Proof.
  unfold nsign, Rsign. simpl. unfold n0, n1; simpl.
  destruct (Rltb_spec 0 x); auto. destruct (Rltb_spec x 0); auto.
  destruct (Reqb_spec x 0); auto. lra.
Qed.
Lemma Rsign_abs x : (Rsign x * Rabs x = x)%R.
Proof.
  unfold Rsign. destruct (Rltb_spec 0 x); [rewrite Rabs_pos_eq; lra|].
  destruct (Rltb_spec x 0); [rewrite Rabs_left; lra|].
  replace x with 0%R by lra. rewrite Rabs_R0; lra.
Qed.
