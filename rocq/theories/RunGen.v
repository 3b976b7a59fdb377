(** * Direction-independent facts about trajectories (exact arithmetic) *)
From Coq Require Import Reals Lra Arith Lia Bool List ZArith.
From Verif Require Import Num Arr Core Track Progress Run RunSched Cells Sums.
Import ListNotations.
Local Open Scope R_scope.

(** sum of a list *)
Definition lsum (l : list R) : R := fold_right Rplus 0 l.
Lemma lsum_app a b : lsum (a ++ b) = lsum a + lsum b.
Proof. unfold lsum. induction a; cbn; [lra|]. rewrite IHa. lra. Qed.
Lemma lsum_Sum f n : lsum (map f (seq 0 n)) = Sum n f.
Proof. induction n; [reflexivity|]. rewrite seq_snoc, map_app, lsum_app. cbn. rewrite IHn. lra. Qed.
Lemma lsum_ext {A} (f g : A -> R) l : (forall x, In x l -> f x = g x) -> lsum (map f l) = lsum (map g l).
Proof. intros H. f_equal. now apply map_ext_in. Qed.

(** ** splitting the list of written indices *)
Lemma app_split_unique {A} (x : A) l1 l2 k1 k2 : ~ In x l1 -> ~ In x k1 ->
  l1 ++ x :: l2 = k1 ++ x :: k2 -> l1 = k1 /\ l2 = k2.
Proof.
  revert k1. induction l1 as [|a l1 IH]; intros [|b k1] H1 H2 E; cbn in *.
  - injection E. auto.
  - injection E as -> E. tauto.
  - injection E as -> E. tauto.
  - injection E as -> E. destruct (IH k1) as [-> ->]; try tauto.
Qed.
Lemma filter_seq_split (P : nat -> bool) K k l1 l2 : filter P (seq 1 K) = l1 ++ k :: l2 ->
  (1 <= k <= K)%nat /\ P k = true /\ l1 = filter P (seq 1 (k - 1)) /\ l2 = filter P (seq (S k) (K - k)).
Proof.
  intros E. assert (Hin : In k (filter P (seq 1 K))) by (rewrite E; apply in_or_app; right; now left).
  apply filter_In in Hin. destruct Hin as [Hk HP]. apply in_seq in Hk.
  assert (Hs : seq 1 K = seq 1 (k - 1) ++ k :: seq (S k) (K - k)).
  { replace K with ((k - 1) + S (K - k))%nat at 1 by lia. rewrite seq_app. cbn [seq]. f_equal. f_equal; [lia|]. f_equal. lia. }
  assert (ND : NoDup (l1 ++ k :: l2)) by (rewrite <- E; apply NoDup_filter, seq_NoDup).
  rewrite Hs, filter_app in E. cbn [filter] in E. rewrite HP in E.
  destruct (app_split_unique k (filter P (seq 1 (k - 1))) (filter P (seq (S k) (K - k))) l1 l2) as [-> ->]; auto.
  - intros Q. apply filter_In in Q. destruct Q as [Q _]. apply in_seq in Q. lia.
  - intros Q. apply NoDup_remove_2 in ND. apply ND, in_or_app. now left.
  - repeat split; auto; lia.
Qed.
(** last written index up to k (0 if there is none) *)
Fixpoint lastw (P : nat -> bool) (k : nat) : nat :=
  match k with O => O | S k' => if P (S k') then S k' else lastw P k' end.
Lemma lastw_filter P k : last (filter P (seq 1 k)) 0%nat = lastw P k.
Proof.
  induction k; [reflexivity|]. rewrite seq_snoc, filter_snoc. cbn [plus lastw]. destruct (P (S k)).
  - apply last_snoc.
  - now rewrite app_nil_r.
Qed.
Lemma lastw_le P k : (lastw P k <= k)%nat.
Proof. induction k; cbn; [lia|]. destruct (P (S k)); lia. Qed.
Lemma map_split {A B} (f : A -> B) l : forall l1 y l2, map f l = l1 ++ y :: l2 ->
  exists k1 x k2, l = k1 ++ x :: k2 /\ map f k1 = l1 /\ f x = y /\ map f k2 = l2.
Proof.
  induction l as [|a l IH]; intros [|b l1] y l2 E; cbn in E; try discriminate.
  - injection E as <- <-. exists [], a, l. auto.
  - injection E as <- E. destruct (IH _ _ _ E) as (k1 & x & k2 & -> & <- & <- & <-). exists (a :: k1), x, k2. auto.
Qed.

Section Last.
  Context {N : NumOps} {Out : Type} (c : runcfg N) (init : Out) (tr0 : tracker N)
    (body : nat -> Out -> tracker N -> res (Out * tracker N * list (warning N)))
    (flush stored : Out -> Out) (store : tracker N -> Out -> tracker N)
    (print : tracker N -> Out -> percentages N)
    (time left half right : nat -> Z) (r : loop_state N Out)
    (o a : nat -> Out) (tr tr' : nat -> tracker N) (ws : nat -> list (warning N))
    (T : traj c init tr0 body flush stored store print time left half right r o a tr tr' ws).
  Notation K := (nsteps c).
  Notation wr := (written c time).
  Lemma last_written : (0 < K)%nat -> wr K = true.
  Proof. intros _. unfold written. rewrite Nat.eqb_refl. apply orb_true_r. Qed.
  (** the last file *)
  Lemma last_file d : (0 < K)%nat -> last (ls_files r) d = (time K, stored (a K)).
  Proof.
    intros HK. rewrite (tj_files _ _ _ _ _ _ _ _ _ _ _ _ _ _ _ _ _ _ T).
    assert (E : seq 1 K = seq 1 (K - 1) ++ [K]).
    { replace K with (S (K - 1)) at 1 by lia. rewrite seq_snoc. do 2 f_equal. lia. }
    rewrite E, filter_snoc, last_written, map_app by auto. apply last_snoc.
  Qed.
End Last.
Section Gen.
  Context {Out : Type} (c : runcfg Rnum) (init : Out) (tr0 : tracker Rnum)
    (body : nat -> Out -> tracker Rnum -> res (Out * tracker Rnum * list (warning Rnum)))
    (flush stored : Out -> Out) (store : tracker Rnum -> Out -> tracker Rnum)
    (print : tracker Rnum -> Out -> percentages Rnum)
    (time left half right : nat -> Z) (r : loop_state Rnum Out)
    (o a : nat -> Out) (tr tr' : nat -> tracker Rnum) (ws : nat -> list (warning Rnum))
    (T : traj c init tr0 body flush stored store print time left half right r o a tr tr' ws).
  Notation K := (nsteps c).
  Notation wr := (written c time).

  (** what has been written up to step k *)
  Definition filed (q : Out -> R) (k : nat) : R := lsum (map (fun k => q (a k)) (filter wr (seq 1 k))).

  (** an accumulated quantity: written so far + still in memory = all increments so far *)
  Lemma acc_upto (q : Out -> R) (Hf : forall x, q (flush x) = 0) k : (k <= K)%nat ->
    filed q k + q (o k) = q init + Sum k (fun j => q (a (S j)) - q (o j)).
  Proof.
    induction k; intros Hk.
    - unfold filed. cbn. rewrite (tj_init _ _ _ _ _ _ _ _ _ _ _ _ _ _ _ _ _ _ T). lra.
    - specialize (IHk ltac:(lia)). unfold filed in *. rewrite seq_snoc, filter_snoc, map_app, lsum_app. cbn [plus Sum].
      pose proof (tj_flush _ _ _ _ _ _ _ _ _ _ _ _ _ _ _ _ _ _ T k ltac:(lia)) as E.
      destruct (wr (S k)) eqn:Ew; cbn [map lsum fold_right].
      + rewrite E, Hf. lra.
      + rewrite E. lra.
  Qed.
  Lemma files_q (q : Out -> R) (Hs : forall x, q (stored x) = q x) :
    lsum (map (fun tf => q (snd tf)) (ls_files r)) = filed q K.
  Proof.
    rewrite (tj_files _ _ _ _ _ _ _ _ _ _ _ _ _ _ _ _ _ _ T), map_map. cbn [snd]. apply lsum_ext. intros. apply Hs.
  Qed.
  (** everything ends up in the files *)
  Lemma acc_total (q : Out -> R) (Hf : forall x, q (flush x) = 0) (Hs : forall x, q (stored x) = q x) (Hi : q init = 0) :
    lsum (map (fun tf => q (snd tf)) (ls_files r)) = Sum K (fun k => q (a (S k)) - q (o k)).
  Proof.
    rewrite files_q by auto. pose proof (acc_upto q Hf K ltac:(lia)) as H. rewrite Hi in H.
    assert (q (o K) = 0); [|lra].
    destruct K as [|k] eqn:EK.
    - now rewrite (tj_init _ _ _ _ _ _ _ _ _ _ _ _ _ _ _ _ _ _ T).
    - pose proof (tj_flush _ _ _ _ _ _ _ _ _ _ _ _ _ _ _ _ _ _ T k ltac:(lia)) as E.
      rewrite <- EK in E at 1. rewrite EK in E. pose proof (last_written c time ltac:(lia)) as L. rewrite EK in L. rewrite L in E. now rewrite E, Hf.
  Qed.
  (** an amount that stays in memory between steps *)
  Lemma keep_total (q : Out -> R) (Hf : forall x, q (flush x) = q x) k : (k <= K)%nat ->
    Sum k (fun j => q (a (S j)) - q (o j)) = q (o k) - q init.
  Proof.
    induction k; intros Hk.
    - cbn. rewrite (tj_init _ _ _ _ _ _ _ _ _ _ _ _ _ _ _ _ _ _ T). lra.
    - cbn [Sum]. rewrite IHk by lia. pose proof (tj_flush _ _ _ _ _ _ _ _ _ _ _ _ _ _ _ _ _ _ T k ltac:(lia)) as E.
      rewrite E. destruct (wr (S k)); rewrite ?Hf; lra.
  Qed.
  Lemma no_files : K = 0%nat <-> ls_files r = [].
  Proof.
    split; intros H.
    - rewrite (tj_files _ _ _ _ _ _ _ _ _ _ _ _ _ _ _ _ _ _ T), H. reflexivity.
    - destruct K eqn:E; [reflexivity|]. pose proof (last_file _ _ _ _ _ _ _ _ _ _ _ _ _ _ _ _ _ _ T (time 0, init) ltac:(lia)) as L. rewrite H in L. cbn in L.
      exfalso. pose proof (tj_files _ _ _ _ _ _ _ _ _ _ _ _ _ _ _ _ _ _ T) as F. rewrite H in F.
      assert (In K (filter wr (seq 1 K))) by (apply filter_In; rewrite in_seq; split; [lia|apply last_written; lia]).
      symmetry in F. apply map_eq_nil in F. rewrite F in H0. contradiction.
  Qed.
  (** an element of the list of files, and the file before it *)
  Lemma file_at l1 t f l2 : ls_files r = l1 ++ (t, f) :: l2 ->
    exists k, (k < K)%nat /\ wr (S k) = true /\ t = time (S k) /\ f = stored (a (S k)) /\
      map fst l1 = map time (filter wr (seq 1 k)) /\
      last (map fst l1) (time 0) = time (lastw wr k).
  Proof.
    intros E. rewrite (tj_files _ _ _ _ _ _ _ _ _ _ _ _ _ _ _ _ _ _ T) in E.
    destruct (map_split _ _ _ _ _ E) as (k1 & x & k2 & E1 & E2 & E3 & E4).
    destruct (filter_seq_split _ _ _ _ _ E1) as (Hx & Hw & -> & ->).
    injection E3 as <- <-. destruct x as [|k]; [lia|]. exists k. cbn [Nat.sub] in *. rewrite Nat.sub_0_r in *.
    assert (Em : map fst l1 = map time (filter wr (seq 1 k))) by (rewrite <- E2, map_map; reflexivity).
    repeat split; auto; [lia|]. rewrite Em, <- lastw_filter.
    generalize (filter wr (seq 1 k)) as l. induction l as [|y l IH]; [reflexivity|]. cbn. destruct l; [reflexivity|exact IH].
  Qed.
  (** an accumulated quantity in memory is bounded by the bounds of the increments since the last output *)
  Lemma since_last (q : Out -> R) (P : nat -> R) (Hf : forall x, q (flush x) = 0) (Hi : q init = 0)
      (Hq : forall k, (k < K)%nat -> q (a (S k)) - q (o k) <= P k) k : (k <= K)%nat ->
    q (o k) <= Sum k (fun j => if Nat.leb (lastw wr k) j then P j else 0).
  Proof.
    induction k; intros Hk.
    - cbn. rewrite (tj_init _ _ _ _ _ _ _ _ _ _ _ _ _ _ _ _ _ _ T). lra.
    - pose proof (tj_flush _ _ _ _ _ _ _ _ _ _ _ _ _ _ _ _ _ _ T k ltac:(lia)) as E.
      specialize (IHk ltac:(lia)). specialize (Hq k ltac:(lia)). cbn [lastw Sum].
      destruct (wr (S k)) eqn:Ew.
      + rewrite E, Hf. destruct (Nat.leb_spec (S k) k); [lia|]. rewrite Sum_0; [lra|].
        intros j Hj. destruct (Nat.leb_spec (S k) j); [lia|reflexivity].
      + rewrite E. pose proof (lastw_le wr k). destruct (Nat.leb_spec (lastw wr k) k); [lra|lia].
  Qed.
End Gen.
