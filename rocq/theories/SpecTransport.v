(** * Specification: donor-cell transport on a latitude/longitude grid

    Independent of the array program.  Row 0 is the northernmost row (latitude
    decreasing), columns run eastwards.  [u] holds the eastward fluxes through the faces
    between west/east neighbours of the interior rows, [v] the northward fluxes through
    the faces between north/south neighbours, in the layout documented for
    horizontal_advection (core.py l.37-41): without periodic boundaries only faces between
    two interior-row (resp. interior-column) cells exist; with periodic boundaries each row
    additionally has a face 0 (west of the first cell) and a face n (east of the last). *)
From Coq Require Import Reals Lra Lia Arith Bool.
Local Open Scope R_scope.

Definition pospart (x : R) : R := Rmax x 0.
Definition negpart (x : R) : R := Rmax (- x) 0.

Section Spec.
  Variables (m n : nat) (per : bool) (u v : nat -> nat -> R).

  Definition interior_rowb (i : nat) : bool := Nat.leb 1 i && Nat.ltb (i + 1) m.
  Definition interior_colb (j : nat) : bool := Nat.leb 1 j && Nat.ltb (j + 1) n.

  (** eastward flux through the west / east face of cell (i,j); 0 if there is no face *)
  Definition flux_w (i j : nat) : R :=
    if interior_rowb i
    then (if per then u (i - 1) j else if Nat.leb 1 j then u (i - 1) (j - 1) else 0%R)%nat
    else 0.
  Definition flux_e (i j : nat) : R :=
    if interior_rowb i
    then (if per then u (i - 1) (j + 1) else if Nat.ltb (j + 1) n then u (i - 1) j else 0%R)%nat
    else 0.
  (** northward flux through the north / south face of cell (i,j) *)
  Definition flux_n (i j : nat) : R :=
    if Nat.leb 1 i
    then (if per then v (i - 1) j else if interior_colb j then v (i - 1) (j - 1) else 0%R)%nat
    else 0.
  Definition flux_s (i j : nat) : R :=
    if Nat.ltb (i + 1) m
    then (if per then v i j else if interior_colb j then v i (j - 1) else 0%R)%nat
    else 0.

  (** column to the west / east, wrapping around *)
  Definition west (j : nat) : nat := (if Nat.eqb j 0 then n - 1 else j - 1)%nat.
  Definition east (j : nat) : nat := (if Nat.eqb (j + 1) n then 0 else j + 1)%nat.

  (** tendency of a scalar s in cell (i,j): what enters through the four faces with the
      concentration of the neighbour minus what leaves with its own concentration *)
  Definition donor_cell (s : nat -> nat -> R) (i j : nat) : R :=
      pospart (flux_w i j) * s i (west j)    - negpart (flux_w i j) * s i j
    + negpart (flux_e i j) * s i (east j)    - pospart (flux_e i j) * s i j
    + pospart (flux_s i j) * s (i + 1)%nat j - negpart (flux_s i j) * s i j
    + negpart (flux_n i j) * s (i - 1)%nat j - pospart (flux_n i j) * s i j.
End Spec.
