(** * The slice cache and the retry loop (model): tracking/io.py l.66-121 *)
From Coq Require Import Arith Lia Bool List ZArith String.
From Verif Require Import Num Arr Core Run Calendar Load.
Import ListNotations.
Local Open Scope nat_scope.

(** ** functools.lru_cache(maxsize=6) and deepcopy (io.py l.94, l.119-121)

    Python objects live in a heap, because cached objects and returned objects could be
    aliased.  The cache is a list of (key, address), most recently used first.  [fetch] is
    the body of the cached function; files do not change during a run. *)
Section Cache.
  Context {K V : Type} (keqb : K -> K -> bool) (fetch : K -> res V).
  Record cstate := mkcstate { heap : nat -> V; next : nat; cache : list (K * nat) }.

  Definition alloc (st : cstate) (v : V) : nat * cstate :=
    (next st, mkcstate (fun a => if Nat.eqb a (next st) then v else heap st a) (S (next st)) (cache st)).
  Fixpoint lookup (k : K) (l : list (K * nat)) : option nat :=
    match l with [] => None | (k', a) :: l => if keqb k k' then Some a else lookup k l end.
  Definition maxsize : nat := 6.
  (** a call of the decorated function; exceptions are not cached *)
  Definition cached_call (k : K) (st : cstate) : res nat * cstate :=
    match lookup k (cache st) with
    | Some a => (OK a, mkcstate (heap st) (next st) ((k, a) :: filter (fun x => negb (keqb k (fst x))) (cache st)))
    | None =>
        match fetch k with
        | Err e => (Err e, st)
        | OK v => let '(a, st) := alloc st v in
                  (OK a, mkcstate (heap st) (next st) (firstn maxsize ((k, a) :: cache st)))
        end
    end.
  (** io.py l.119-121: slice = cached(...); return deepcopy(slice) *)
  Definition cached_load_slice (k : K) (st : cstate) : res nat * cstate :=
    match cached_call k st with
    | (OK a, st) => let '(b, st) := alloc st (heap st a) in (OK b, st)
    | (Err e, st) => (Err e, st)
    end.

  (** A caller loads slices and modifies the objects it was given in place, in any order.
      [held] are the addresses handed out. *)
  Inductive event := Load (k : K) | Modify (a : nat) (v : V).
  Record cworld := mkcworld { cst : cstate; held : list nat }.
  Definition do_event (w : cworld) (e : event) : cworld :=
    match e with
    | Load k => match cached_load_slice k (cst w) with
                | (OK a, st) => mkcworld st (a :: held w)
                | (Err _, st) => mkcworld st (held w)
                end
    | Modify a v => if existsb (Nat.eqb a) (held w)
                    then mkcworld (mkcstate (fun b => if Nat.eqb b a then v else heap (cst w) b) (next (cst w)) (cache (cst w))) (held w)
                    else w
    end.
  Definition after (st : cstate) (history : list event) : cworld := fold_left do_event history (mkcworld st []).
  Definition empty_cache (h : nat -> V) : cstate := mkcstate h 0 [].

  Hypothesis keqb_ok : forall a b, keqb a b = true <-> a = b.

  (** the invariant: cached objects hold what the files contain and nobody else has them *)
  Record cinv (w : cworld) : Prop := {
    ci_len : List.length (cache (cst w)) <= maxsize;
    ci_val : forall k a, In (k, a) (cache (cst w)) -> fetch k = OK (heap (cst w) a);
    ci_own : forall k a, In (k, a) (cache (cst w)) -> ~ In a (held w);
    ci_old : (forall k a, In (k, a) (cache (cst w)) -> a < next (cst w)) /\ (forall a, In a (held w) -> a < next (cst w));
    ci_dup : NoDup (map fst (cache (cst w))) }.

  Lemma lookup_some k l a : lookup k l = Some a -> In (k, a) l.
  Proof.
    induction l as [|[k' a'] l IH]; [discriminate|]. cbn. destruct (keqb k k') eqn:E.
    - intros H. injection H as ->. apply keqb_ok in E. subst. now left.
    - intros H. right. auto.
  Qed.
  Lemma lookup_none k l : lookup k l = None -> ~ In k (map fst l).
  Proof.
    induction l as [|[k' a'] l IH]; [intros _ []|]. cbn. destruct (keqb k k') eqn:E; [discriminate|].
    intros H [->|Hi]; [|exact (IH H Hi)]. assert (keqb k k = true) by now apply keqb_ok. congruence.
  Qed.
  Lemma in_firstn {A} n (l : list A) x : In x (firstn n l) -> In x l.
  Proof. revert l. induction n; intros [|y l]; cbn; try tauto. intros [->|H]; auto. Qed.
  Lemma NoDup_firstn {A} n (l : list A) : NoDup l -> NoDup (firstn n l).
  Proof.
    revert l. induction n; intros [|y l] H; cbn; try constructor.
    - inversion_clear H. intros C. apply in_firstn in C. auto.
    - apply IHn. now inversion H.
  Qed.
  Lemma filter_count k l : NoDup (map fst l) -> In k (map fst l) ->
    S (List.length (filter (fun x : K * nat => negb (keqb k (fst x))) l)) = List.length l.
  Proof.
    induction l as [|[k' a'] l IH]; [intros _ []|]. cbn. intros N H. inversion_clear N as [|? ? Hn N'].
    destruct (keqb k k') eqn:E.
    - apply keqb_ok in E. subst k'. cbn. f_equal. clear IH H N'. induction l as [|[k1 a1] l IH]; [reflexivity|].
      cbn. destruct (keqb k k1) eqn:E1; [apply keqb_ok in E1; subst; exfalso; apply Hn; now left|]. cbn. f_equal.
      apply IH. intros C. apply Hn. now right.
    - cbn. f_equal. apply IH; [exact N'|]. destruct H as [->|H]; [|exact H].
      assert (keqb k k = true) by now apply keqb_ok. congruence.
  Qed.
  Lemma NoDup_filter_keys (g : K * nat -> bool) l : NoDup (map fst l) -> NoDup (map fst (filter g l)).
  Proof.
    induction l as [|x l IH]; cbn; [auto|]. intros N. inversion_clear N as [|? ? Hn N']. destruct (g x); cbn; [|auto].
    constructor; [|auto]. intros C. apply Hn. apply in_map_iff in C. destruct C as (y & E & Hy). apply filter_In in Hy.
    apply in_map_iff. exists y. tauto.
  Qed.

  Lemma call_spec k w : cinv w ->
    match cached_call k (cst w) with
    | (OK a, st) => fetch k = OK (heap st a) /\ cinv (mkcworld st (held w)) /\ a < next st /\ next (cst w) <= next st
    | (Err e, st) => fetch k = Err e /\ cinv (mkcworld st (held w))
    end.
  Proof.
    intros [L Vl O [Oc Oh] D]. unfold cached_call. destruct (lookup k (cache (cst w))) as [a|] eqn:E.
    - apply lookup_some in E. cbn. split; [auto|]. split; [|split; [eauto|lia]].
      assert (HIn : forall k' a', (k, a) = (k', a') \/ In (k', a') (filter (fun x => negb (keqb k (fst x))) (cache (cst w))) -> In (k', a') (cache (cst w))).
      { intros k' a' [H|H]; [injection H as <- <-; auto|]. apply filter_In in H. tauto. }
      constructor; cbn; eauto.
      + pose proof (filter_count k _ D (in_map fst _ _ E)). lia.
      + constructor; [|now apply NoDup_filter_keys]. intros C. apply in_map_iff in C. destruct C as (x & Ex & Hx).
        apply filter_In in Hx. destruct Hx as [_ Hx]. rewrite Ex in Hx. assert (Q : keqb k k = true) by now apply keqb_ok. rewrite Q in Hx. discriminate Hx.
    - destruct (fetch k) as [v|e] eqn:F.
      + cbn [alloc]. cbn [cache heap next].
        set (fn := firstn maxsize ((k, next (cst w)) :: cache (cst w))).
        assert (HIn : forall k' a', In (k', a') fn -> (k' = k /\ a' = next (cst w)) \/ In (k', a') (cache (cst w))).
        { intros k' a' H. apply in_firstn in H. cbn in H. destruct H as [H|H]; [injection H as -> ->; auto|auto]. }
        assert (HL : List.length fn <= maxsize) by (unfold fn; rewrite firstn_length; lia).
        assert (HN : NoDup (map fst fn)).
        { unfold fn. rewrite <- firstn_map. apply NoDup_firstn. cbn [map fst]. constructor; [now apply lookup_none|auto]. }
        clearbody fn. cbn. rewrite Nat.eqb_refl. split; [reflexivity|]. split; [|split; lia].
        constructor; cbn.
        * exact HL.
        * intros k' a' H. destruct (HIn k' a' H) as [[-> ->]|H']; [now rewrite Nat.eqb_refl|].
          destruct (Nat.eqb_spec a' (next (cst w))); [apply Oc in H'; lia|auto].
        * intros k' a' H. destruct (HIn k' a' H) as [[-> ->]|H']; [|eauto]. intros C. apply Oh in C. lia.
        * split; [|intros a' H; apply Oh in H; lia].
          intros k' a' H. destruct (HIn k' a' H) as [[-> ->]|H']; [lia|]. apply Oc in H'. lia.
        * exact HN.
      + split; [reflexivity|]. constructor; auto.
  Qed.

  Lemma load_spec k w : cinv w ->
    match cached_load_slice k (cst w) with
    | (OK a, st) => fetch k = OK (heap st a) /\ cinv (mkcworld st (a :: held w)) /\ next (cst w) <= a
    | (Err e, st) => fetch k = Err e /\ cinv (mkcworld st (held w))
    end.
  Proof.
    intros I. unfold cached_load_slice. pose proof (call_spec k w I) as H.
    destruct (cached_call k (cst w)) as [[a|e] st]; [|exact H].
    destruct H as (F & [L Vl O [Oc Oh] D] & Ha & Hn). cbn [cst held] in *. cbn [alloc]. cbn. rewrite Nat.eqb_refl.
    split; [exact F|]. split; [|lia]. constructor; cbn; auto.
    - intros k' a' H. destruct (Nat.eqb_spec a' (next st)) as [->|]; [apply Oc in H; lia|auto].
    - intros k' a' H [<-|C]; [apply Oc in H; lia|eapply O; eauto].
    - split; [intros k' a' H; apply Oc in H; lia|]. intros a' [<-|H]; [lia|]. apply Oh in H. lia.
  Qed.

  Lemma event_inv w e : cinv w -> cinv (do_event w e).
  Proof.
    intros I. destruct e as [k|a v]; cbn [do_event].
    - pose proof (load_spec k w I) as H. destruct (cached_load_slice k (cst w)) as [[a|e] st]; tauto.
    - destruct (existsb (Nat.eqb a) (held w)) eqn:E; [|exact I]. apply existsb_exists in E. destruct E as (a' & Ha & Ee).
      apply Nat.eqb_eq in Ee. subst a'. destruct I as [L Vl O [Oc Oh] D]. constructor; cbn; auto.
      intros k' a' H. destruct (Nat.eqb_spec a' a) as [->|]; [exfalso; eapply O; eauto|auto].
  Qed.
  Lemma after_inv h history : cinv (after (empty_cache h) history).
  Proof.
    unfold after. assert (I : cinv (mkcworld (empty_cache h) [])).
    { constructor; cbn; [unfold maxsize; lia|tauto|tauto|split; tauto|constructor]. }
    revert I. generalize (mkcworld (empty_cache h) []). induction history; intros w I; [exact I|]. cbn. apply IHhistory, event_inv, I.
  Qed.

  (** After any history of loads and in-place modifications, the next load returns what the
      file contains (or raises what reading raises), the returned object is new, and at most
      six slices are kept. *)
  Lemma cache_transparent h history k :
    let w := after (empty_cache h) history in
    List.length (cache (cst w)) <= 6 /\
    match cached_load_slice k (cst w) with
    | (OK a, st) => fetch k = OK (heap st a) /\ ~ In a (held w) /\ List.length (cache st) <= 6
    | (Err e, st) => fetch k = Err e
    end.
  Proof.
    intros w. pose proof (after_inv h history) as I. fold w in I. split; [apply (ci_len _ I)|].
    pose proof (load_spec k w I) as H. destruct (cached_load_slice k (cst w)) as [[a|e] st]; [|tauto].
    destruct H as (F & I' & Ha). split; [exact F|]. split; [|apply (ci_len _ I')].
    intros C. apply (ci_old _ I) in C. lia.
  Qed.
End Cache.
Arguments cstate : clear implicits.
Arguments event : clear implicits.

(** ** The key of a slice (io.py l.114-120) *)
Section Slices.
  Context {N : NumOps} (cal : calendar) (fs : folder N) (crop : option string -> slice N -> slice N).
  (** (filename, time, subset, bbox); subset is true for "states" *)
  Definition key := (string * string * bool * option string)%type.
  Definition opt_eqb (a b : option string) : bool :=
    match a, b with Some x, Some y => String.eqb x y | None, None => true | _, _ => false end.
  Definition key_eqb (a b : key) : bool :=
    let '(f, t, s, d) := a in let '(f', t', s', d') := b in
    (String.eqb f f' && String.eqb t t' && Bool.eqb s s' && opt_eqb d d')%bool.
  (** what is loaded: the states or the fluxes *)
  Definition part : Type := states N + fluxes N.
  Definition get_part (subset : bool) (s : slice N) : part := if subset then inl (sl_states s) else inr (sl_fluxes s).
  (** io.py l.95-111 *)
  Definition fetch_slice (k : key) : res part :=
    let '(file, label, subset, domain) := k in
    match fs file with
    | None => Err FileNotFoundError
    | Some f => do s <- select_label cal f label; OK (get_part subset (crop domain s))
    end.
  Definition key_of (dir : string) (domain : option string) (subset : bool) (t : Z) : key :=
    (input_path cal dir t, time_label cal t, subset, domain).
  Lemma key_eqb_ok a b : key_eqb a b = true <-> a = b.
  Proof.
    destruct a as [[[f t] s] d], b as [[[f' t'] s'] d']. unfold key_eqb. rewrite !andb_true_iff, !String.eqb_eq, Bool.eqb_true_iff.
    assert (opt_eqb d d' = true <-> d = d').
    { destruct d, d'; cbn; rewrite ?String.eqb_eq; split; intros; congruence. }
    rewrite H. split; [intros [[[-> ->] ->] ->]; reflexivity|intros E; injection E as -> -> -> ->; auto].
  Qed.
  Lemma fetch_key dir domain subset t :
    fetch_slice (key_of dir domain subset t) = do s <- load_slice cal dir fs (crop domain) t; OK (get_part subset s).
  Proof.
    unfold fetch_slice, key_of, load_slice. destruct (fs (input_path cal dir t)) as [f|]; [|reflexivity].
    destruct (select_label cal f (time_label cal t)); reflexivity.
  Qed.
End Slices.

(** C36: however the caller has used load_slice and modified what it got (states and fluxes
    at any times, with any domains), load_slice(t) gives the part of the file that belongs to
    [t], as a new object, and at most six slices are cached. *)
Theorem C36_cache_is_transparent {N : NumOps} cal (fs : folder N) crop dir domain subset t h history :
  let w := after key_eqb (fetch_slice cal fs crop) (empty_cache h) history in
  List.length (cache (cst w)) <= 6 /\
  match cached_load_slice key_eqb (fetch_slice cal fs crop) (key_of cal dir domain subset t) (cst w) with
  | (OK a, st) => ~ In a (held w) /\ List.length (cache st) <= 6 /\
      exists s, load_slice cal dir fs (crop domain) t = OK s /\
        heap st a = if subset then inl (sl_states s) else inr (sl_fluxes s)
  | (Err e, st) => load_slice cal dir fs (crop domain) t = Err e
  end.
Proof.
  intros w. destruct (cache_transparent key_eqb (fetch_slice cal fs crop) key_eqb_ok h history (key_of cal dir domain subset t)) as [L H].
  fold w in L, H. split; [exact L|].
  destruct (cached_load_slice _ _ _ _) as [[a|e] st]; rewrite fetch_key in H.
  - destruct H as (F & Ha & Hl). split; [exact Ha|]. split; [exact Hl|].
    destruct (load_slice cal dir fs (crop domain) t) as [s|]; [|discriminate]. cbn [bind] in F. injection F as F. eauto.
  - destruct (load_slice cal dir fs (crop domain) t) as [s|]; [discriminate|]. cbn [bind] in H. congruence.
Qed.

(** load_data on top of the cache (io.py l.124-134) gives the same as without *)
Section CachedData.
  Context {N : NumOps} (cal : calendar) (dir : string) (fs : folder N) (crop : option string -> slice N -> slice N)
    (domain : option string) (freq : Z).
  Let call := cached_load_slice key_eqb (fetch_slice cal fs crop).
  Definition cached_load_data (subset : bool) (interp : N -> part -> part -> res part) (t : Z) (st : cstate key part)
    : res part * cstate key part :=
    let t0 := round_floor t freq in
    let t1 := round_ceil t freq in
    if (Z.eqb t t0 || Z.eqb t t1)%bool then
      let '(r, st) := call (key_of cal dir domain subset t) st in
      (do a <- r; OK (heap st a), st)
    else
      let '(r0, st) := call (key_of cal dir domain subset t0) st in
      match r0 with
      | Err e => (Err e, st)
      | OK a0 =>
        let '(r1, st) := call (key_of cal dir domain subset t1) st in
        (do a1 <- r1; interp (ndiv (nofZ (t - t0)) (nofZ (t1 - t0))) (heap st a0) (heap st a1), st)
      end.
  (** interpolation of states or fluxes *)
  Definition interp_part (w : N) (a b : part) : res part :=
    match a, b with
    | inl x, inl y => do r <- lerp_states w x y; OK (inl r)
    | inr x, inr y => do r <- lerp_fluxes w x y; OK (inr r)
    | _, _ => Err TypeError
    end.
End CachedData.

Lemma cached_heap_kept {K V} keqb (fetch : K -> res V) (k : K) (w : cworld) a :
  a < next (cst w) -> forall r st, cached_load_slice keqb fetch k (cst w) = (r, st) -> heap st a = heap (cst w) a.
Proof.
  intros Ha r st. unfold cached_load_slice, cached_call. destruct (lookup keqb k (cache (cst w))) as [b|].
  - cbn. intros H. injection H as <- <-. cbn. destruct (Nat.eqb_spec a (next (cst w))); [lia|reflexivity].
  - destruct (fetch k); cbn; intros H; injection H as <- <-; [|reflexivity]. cbn.
    destruct (Nat.eqb_spec a (S (next (cst w)))); [lia|]. destruct (Nat.eqb_spec a (next (cst w))); [lia|reflexivity].
Qed.

Theorem C36_cached_load_data {N : NumOps} cal dir (fs : folder N) crop domain freq h history t :
  let w := after key_eqb (fetch_slice cal fs crop) (empty_cache h) history in
  (fst (cached_load_data cal dir fs crop domain freq true interp_part t (cst w))
     = do s <- load_states cal dir fs (crop domain) freq t; OK (inl s)) /\
  (fst (cached_load_data cal dir fs crop domain freq false interp_part t (cst w))
     = do f <- load_fluxes cal dir fs (crop domain) freq t; OK (inr f)).
Proof.
  intros w. pose proof (after_inv key_eqb (fetch_slice cal fs crop) key_eqb_ok h history) as I. fold w in I. clearbody w.
  assert (G : forall subset t1 w1, cinv (fetch_slice cal fs crop) w1 ->
    match cached_load_slice key_eqb (fetch_slice cal fs crop) (key_of cal dir domain subset t1) (cst w1) with
    | (OK a, st) => exists s, load_slice cal dir fs (crop domain) t1 = OK s /\ heap st a = get_part subset s /\
         cinv (fetch_slice cal fs crop) (mkcworld st (a :: held w1))
    | (Err e, st) => load_slice cal dir fs (crop domain) t1 = Err e
    end).
  { intros subset t1 w1 I1. pose proof (load_spec key_eqb (fetch_slice cal fs crop) key_eqb_ok (key_of cal dir domain subset t1) w1 I1) as H.
    destruct (cached_load_slice _ _ _ _) as [[a|e] st]; rewrite fetch_key in H.
    - destruct (load_slice cal dir fs (crop domain) t1) as [s|]; destruct H as (F & I' & _); [|discriminate]. cbn [bind] in F. injection F as F. eauto.
    - destruct (load_slice cal dir fs (crop domain) t1) as [s|]; destruct H as (F & _); [discriminate|]. cbn [bind] in F. congruence. }
  assert (D : forall subset, fst (cached_load_data cal dir fs crop domain freq subset interp_part t (cst w)) =
     if (Z.eqb t (round_floor t freq) || Z.eqb t (round_ceil t freq))%bool
     then do s <- load_slice cal dir fs (crop domain) t; OK (get_part subset s)
     else do s0 <- load_slice cal dir fs (crop domain) (round_floor t freq);
          do s1 <- load_slice cal dir fs (crop domain) (round_ceil t freq);
          interp_part (ndiv (nofZ (t - round_floor t freq)) (nofZ (round_ceil t freq - round_floor t freq))) (get_part subset s0) (get_part subset s1)).
  { intros subset. unfold cached_load_data. destruct (_ || _)%bool.
    - pose proof (G subset t w I) as H. destruct (cached_load_slice _ _ _ _) as [[a|e] st]; cbn.
      + destruct H as (s & -> & -> & _). reflexivity.
      + rewrite H. reflexivity.
    - pose proof (G subset (round_floor t freq) w I) as H. destruct (cached_load_slice _ _ _ _) as [[a|e] st]; cbn.
      2: { rewrite H. reflexivity. }
      destruct H as (s & -> & Hs & I'). cbn [bind].
      pose proof (G subset (round_ceil t freq) _ I') as H. cbn [cst held] in H.
      destruct (cached_load_slice _ _ _ st) as [[b|e] st2] eqn:E; cbn.
      2: { rewrite H. reflexivity. }
      destruct H as (s1 & -> & Hs1 & _). cbn [bind].
      pose proof (cached_heap_kept _ _ _ (mkcworld st (a :: held w)) a ltac:(apply (ci_old _ _ I'); now left) _ _ E) as K. cbn in K.
      rewrite K, Hs, Hs1. reflexivity. }
  rewrite !D. unfold load_states, load_fluxes, load_data. destruct (_ || _)%bool.
  - destruct (load_slice cal dir fs (crop domain) t); split; reflexivity.
  - destruct (load_slice cal dir fs (crop domain) (round_floor t freq)); [|split; reflexivity].
    destruct (load_slice cal dir fs (crop domain) (round_ceil t freq)); [|split; reflexivity].
    cbn [bind get_part interp_part]. split; reflexivity.
Qed.

(** ** read_or_retry (io.py l.66-91)
    [attempt n] is the outcome of the n-th attempt to open the file and [rand b] a random
    number below [b], as drawn after the n-th attempt. *)
Section Retry.
  Context {D : Type} (attempt : nat -> res D) (rand : nat -> Z -> Z).
  Definition max_retries : nat := 8.
  Definition base_delay (n : nat) : Z := (500 * 2 ^ Z.of_nat n)%Z.
  (** result, number of attempts, delays in ms *)
  Fixpoint retry (fuel n : nat) : res D * nat * list Z :=
    match fuel with
    | O => (Err OtherError, n, [])    (* not reached *)
    | S fuel =>
      match attempt n with
      | Err IndexError =>
          if Nat.eqb n max_retries then (Err IndexError, S n, [])
          else let '(r, k, ds) := retry fuel (S n) in (r, k, (base_delay n + rand n (base_delay n))%Z :: ds)
      | r => (r, S n, [])
      end
    end.
  Definition read_or_retry : res D * nat * list Z := retry (S max_retries) 0.
End Retry.

(** C37: [k] failed attempts, all of them IndexErrors, then one more whose outcome is the
    result; more than 9 attempts are never made, the result is an IndexError only after 9;
    the i-th delay is between 500*2^i ms and twice that, and all delays together stay below
    255 s. *)
Theorem C37_bounded_retry {D} (attempt : nat -> res D) (rand : nat -> Z -> Z) :
  (forall n b, (0 < b)%Z -> (0 <= rand n b < b)%Z) ->
  exists k ds, read_or_retry attempt rand = (attempt k, S k, ds) /\ k <= 8 /\
    (forall i, i < k -> attempt i = Err IndexError) /\
    (attempt k = Err IndexError -> k = 8) /\
    List.length ds = k /\
    (forall i, i < k -> (500 * 2 ^ Z.of_nat i <= nth i ds 0 < 2 * (500 * 2 ^ Z.of_nat i))%Z) /\
    (fold_right Z.add 0 ds < 255000)%Z.
Proof.
  intros Hr.
  assert (G : forall f n, n + f = 9 -> 0 < f -> exists k ds, retry attempt rand f n = (attempt (n + k), S (n + k), ds) /\ n + k <= 8 /\
    (forall i, i < k -> attempt (n + i) = Err IndexError) /\ (attempt (n + k) = Err IndexError -> n + k = 8) /\
    List.length ds = k /\ (forall i, i < k -> (500 * 2 ^ Z.of_nat (n + i) <= nth i ds 0 < 2 * (500 * 2 ^ Z.of_nat (n + i)))%Z) /\
    (k = 0 /\ fold_right Z.add 0%Z ds = 0%Z \/ (fold_right Z.add 0%Z ds < 255000 - 1000 * (2 ^ Z.of_nat n - 1))%Z)).
  { induction f; intros n Hn Hf; [lia|]. cbn [retry].
    assert (Stop : forall r, attempt n = r -> r <> Err IndexError \/ n = 8 -> exists k ds, (r, S n, []) = (attempt (n + k), S (n + k), ds) /\ n + k <= 8 /\
      (forall i, i < k -> attempt (n + i) = Err IndexError) /\ (attempt (n + k) = Err IndexError -> n + k = 8) /\
      List.length ds = k /\ (forall i, i < k -> (500 * 2 ^ Z.of_nat (n + i) <= nth i ds 0 < 2 * (500 * 2 ^ Z.of_nat (n + i)))%Z) /\
      (k = 0 /\ fold_right Z.add 0%Z ds = 0%Z \/ (fold_right Z.add 0%Z ds < 255000 - 1000 * (2 ^ Z.of_nat n - 1))%Z)).
    { intros r E Hn8. exists 0, []. rewrite Nat.add_0_r, E. split; [reflexivity|]. split; [lia|]. split; [lia|].
      split; [intros; destruct Hn8; [congruence|lia]|]. split; [reflexivity|]. split; [lia|]. left. auto. }
    destruct (attempt n) as [d|e] eqn:E; [apply Stop; [auto|left; discriminate]|].
    destruct e; try (apply Stop; [auto|left; discriminate]).
    destruct (Nat.eqb_spec n max_retries) as [Hm|Hm]; [apply Stop; [auto|now right]|]. unfold max_retries in Hm.
    destruct (IHf (S n) ltac:(lia) ltac:(lia)) as (k & ds & -> & Hk & H1 & H2 & H3 & H4 & H5).
    exists (S k), ((base_delay n + rand n (base_delay n))%Z :: ds). rewrite Nat.add_succ_r. split; [reflexivity|]. split; [lia|].
    split; [|split; [exact H2|split; [cbn; lia|split]]].
    - intros [|i] Hi; [now rewrite Nat.add_0_r|]. rewrite Nat.add_succ_r. apply (H1 i). lia.
    - assert (0 < base_delay n)%Z by (unfold base_delay; pose proof (Z.pow_pos_nonneg 2 (Z.of_nat n)); lia).
      specialize (Hr n (base_delay n) H).
      intros [|i] Hi; [rewrite Nat.add_0_r; cbn [nth]; unfold base_delay in *; lia|].
      cbn [nth]. rewrite Nat.add_succ_r. apply (H4 i). lia.
    - right. cbn [fold_right].
      assert (0 < base_delay n)%Z by (unfold base_delay; pose proof (Z.pow_pos_nonneg 2 (Z.of_nat n)); lia).
      specialize (Hr n (base_delay n) H). unfold base_delay in *.
      rewrite Nat2Z.inj_succ, Z.pow_succ_r in H5 by lia.
      assert (2 ^ Z.of_nat n <= 2 ^ 7)%Z by (apply Z.pow_le_mono_r; lia). change (2 ^ 7)%Z with 128%Z in *.
      destruct H5 as [[-> H5]|H5]; [rewrite H5|]; lia. }
  destruct (G 9 0 ltac:(lia) ltac:(lia)) as (k & ds & E & Hk & H1 & H2 & H3 & H4 & H5).
  cbn [Nat.add] in *. exists k, ds. unfold read_or_retry. change (S max_retries) with 9. rewrite E.
  split; [reflexivity|]. split; [exact Hk|]. split; [exact H1|]. split; [exact H2|]. split; [exact H3|]. split; [exact H4|].
  change (2 ^ Z.of_nat 0)%Z with 1%Z in H5. destruct H5 as [[_ H5]|H5]; lia.
Qed.

(** non-vacuity: a file that can be read at the third attempt *)
Example C37_witness : read_or_retry (fun n => if Nat.ltb n 2 then Err IndexError else OK n) (fun _ b => (b - 1)%Z)
  = (OK 2, 3, [999; 1999]%Z).
Proof. reflexivity. Qed.
