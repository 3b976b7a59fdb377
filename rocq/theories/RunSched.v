(** * The loops as counted sequences of steps (proof infrastructure for C25-C33) *)
From Coq Require Import Arith Lia Bool List ZArith.
From Verif Require Import Num Arr Core Track Progress Run.
Import ListNotations.

(** ** any while loop *)
Section Gen.
  Context {St : Type} (cond : St -> bool) (pass : St -> res St).
  Fixpoint gloop (fuel : nat) (st : St) : res (option St) :=
    match fuel with
    | O => OK None
    | S fuel => if cond st then do st <- pass st; gloop fuel st else OK (Some st)
    end.
  Lemma gloop_inv fuel : forall st r, gloop fuel st = OK (Some r) ->
    exists K (s : nat -> St), s 0 = st /\ s K = r /\ cond r = false /\
      forall k, k < K -> cond (s k) = true /\ pass (s k) = OK (s (S k)).
  Proof.
    induction fuel; intros st r H; [discriminate|]. cbn in H. destruct (cond st) eqn:Ec.
    - destruct (pass st) as [st'|] eqn:Ep; [|discriminate]. cbn in H.
      destruct (IHfuel st' r H) as (K & s & H0 & HK & Hc & Hs).
      exists (S K), (fun k => match k with O => st | S k => s k end).
      split; [reflexivity|]. split; [exact HK|]. split; [exact Hc|].
      intros [|k] Hk; [rewrite H0; auto|]. apply Hs. lia.
    - injection H as <-. exists 0, (fun _ => st). repeat split; auto; lia.
  Qed.
  Lemma gloop_run K : forall (s : nat -> St), cond (s K) = false ->
    (forall k, k < K -> cond (s k) = true /\ pass (s k) = OK (s (S k))) ->
    gloop (S K) (s 0) = OK (Some (s K)).
  Proof.
    induction K; intros s Hc Hs.
    - cbn. now rewrite Hc.
    - destruct (Hs 0 ltac:(lia)) as [C0 P0].
      change (gloop (S (S K)) (s 0)) with (if cond (s 0) then do st <- pass (s 0); gloop (S K) st else OK (Some (s 0))).
      rewrite C0, P0. cbn [bind]. apply (IHK (fun k => s (S k))); auto. intros k Hk. apply Hs. lia.
  Qed.
  Lemma gloop_running fuel : forall (s : nat -> St),
    (forall k, k < fuel -> cond (s k) = true /\ pass (s k) = OK (s (S k))) -> gloop fuel (s 0) = OK None.
  Proof.
    induction fuel; intros s Hs; [reflexivity|]. destruct (Hs 0 ltac:(lia)) as [C0 P0].
    cbn. rewrite C0, P0. cbn [bind]. apply (IHfuel (fun k => s (S k))). intros k Hk. apply Hs. lia.
  Qed.
End Gen.

Section Sched.
  Context {N : NumOps}.

  Lemma fwd_loop_gloop c w fuel : forall st,
    fwd_loop (N := N) fuel c w st = gloop (fun s => Z.leb (ls_t1 s) (rc_end c)) (fwd_pass c w) fuel st.
  Proof.
    induction fuel; intros st; [reflexivity|]. cbn [fwd_loop gloop]. destruct (Z.leb _ _); [|reflexivity].
    destruct (fwd_pass c w st); [|reflexivity]. cbn [bind]. apply IHfuel.
  Qed.
  Lemma bwd_loop_gloop c w fuel : forall st,
    bwd_loop (N := N) fuel c w st = gloop (fun s => Z.leb (rc_start c) (ls_t0 s)) (bwd_pass c w) fuel st.
  Proof.
    induction fuel; intros st; [reflexivity|]. cbn [bwd_loop gloop]. destruct (Z.leb _ _); [|reflexivity].
    destruct (bwd_pass c w st); [|reflexivity]. cbn [bind]. apply IHfuel.
  Qed.

  (** number of steps that fit into the tracking interval *)
  Definition nsteps (c : runcfg N) : nat := Z.to_nat ((rc_end c - rc_start c) / rc_dt c).
  (** the k-th time counted from the start (forward) or from the end (backward) *)
  Definition tfwd (c : runcfg N) (k : nat) : Z := (rc_start c + Z.of_nat k * rc_dt c)%Z.
  Definition tbwd (c : runcfg N) (k : nat) : Z := (rc_end c - Z.of_nat k * rc_dt c)%Z.
  (** output is written after the k-th step *)
  Definition written (c : runcfg N) (t : nat -> Z) (k : nat) : bool :=
    (Z.eqb (t k mod rc_output_frequency c) 0 || Nat.eqb k (nsteps c))%bool.

  (** The shape of a completed run: [o k] and [a k] are the output before step k (counting
      from 0) and after step k-1. *)
  Record traj {Out : Type} (c : runcfg N) (init : Out) (tr0 : tracker N)
      (body : nat -> Out -> tracker N -> res (Out * tracker N * list (warning N)))
      (flush stored : Out -> Out) (store : tracker N -> Out -> tracker N) (print : tracker N -> Out -> percentages N)
      (time : nat -> Z) (left : nat -> Z) (half : nat -> Z) (right : nat -> Z) (r : loop_state N Out)
      (o a : nat -> Out) (tr tr' : nat -> tracker N) (ws : nat -> list (warning N)) : Prop := mktraj {
    tj_init : o 0 = init;
    tj_tr0 : tr 0 = tr0;
    tj_body : forall k, k < nsteps c -> body k (o k) (tr k) = OK (a (S k), tr' (S k), ws k);
    tj_flush : forall k, k < nsteps c -> o (S k) = if written c time (S k) then flush (a (S k)) else a (S k);
    tj_store : forall k, k < nsteps c -> tr (S k) = if written c time (S k) then store (tr' (S k)) (a (S k)) else tr' (S k);
    tj_out : ls_out r = o (nsteps c);
    tj_files : ls_files r = map (fun k => (time k, stored (a k))) (filter (written c time) (seq 1 (nsteps c)));
    tj_log : ls_log r = map (fun k => (time k, print (tr' k) (a k))) (filter (written c time) (seq 1 (nsteps c)));
    tj_warn : ls_warnings r = flat_map (fun k => map (fun x => (time k, x)) (ws k)) (seq 0 (nsteps c));
    tj_reads : ls_reads r = (true, time 0) ::
       flat_map (fun k => [(true, left k); (false, half k); (true, right k)]) (seq 0 (nsteps c));
    tj_steps : ls_steps r = map (fun k => (left k, o k, a (S k))) (seq 0 (nsteps c)) }.

  Lemma nsteps_spec (c : runcfg N) k : (0 < rc_dt c)%Z ->
    (k < nsteps c <-> (tfwd c (S k) <= rc_end c)%Z).
  Proof.
    intros H. unfold nsteps, tfwd.
    pose proof (Z.div_mod (rc_end c - rc_start c) (rc_dt c) ltac:(lia)).
    pose proof (Z.mod_pos_bound (rc_end c - rc_start c) (rc_dt c) H).
    set (q := ((rc_end c - rc_start c) / rc_dt c)%Z) in *. set (rm := ((rc_end c - rc_start c) mod rc_dt c)%Z) in *.
    set (d := rc_dt c) in *. clearbody q rm d. split; intros.
    - assert (Z.of_nat (S k) <= q)%Z by lia. nia.
    - assert (Z.of_nat (S k) <= q)%Z by nia. lia.
  Qed.
  Lemma nsteps_spec_b (c : runcfg N) k : (0 < rc_dt c)%Z ->
    (k < nsteps c <-> (rc_start c <= tbwd c (S k))%Z).
  Proof. intros H. rewrite nsteps_spec by auto. unfold tfwd, tbwd. lia. Qed.

  Lemma floor_eq t f : (Z.eqb t (round_floor t f) = Z.eqb (t mod f) 0)%Z.
  Proof. unfold round_floor. destruct (Z.eqb_spec (t mod f) 0), (Z.eqb_spec t (t - t mod f)); lia. Qed.
  Lemma seq_snoc a n : seq a (S n) = seq a n ++ [a + n].
  Proof. rewrite <- Nat.add_1_r, seq_app. reflexivity. Qed.
  Lemma last_snoc {A} (l : list A) x d : last (l ++ [x]) d = x.
  Proof. induction l as [|y l IH]; [reflexivity|]. cbn. destruct (l ++ [x]) eqn:E; [now destruct l|exact IH]. Qed.
  Lemma filter_snoc {A} f (l : list A) x : filter f (l ++ [x]) = filter f l ++ if f x then [x] else [].
  Proof. rewrite filter_app. reflexivity. Qed.

  (** what one pass does, both directions *)
  Section Dir.
    Context {Out : Type} (c : runcfg N) (body : Z -> Z -> Z -> Out -> tracker N -> res (Out * tracker N * list (warning N)))
      (flush stored : Out -> Out) (store : tracker N -> Out -> tracker N) (print : tracker N -> Out -> percentages N)
      (cond : loop_state N Out -> bool) (pass : loop_state N Out -> res (loop_state N Out))
      (time left half right : nat -> Z) (init : Out) (tr0 : tracker N).
    Definition at_step (k : nat) (st : loop_state N Out) : Prop :=
      ls_t0 st = left k /\ ls_th st = half k /\ ls_t1 st = right k.
    Hypothesis Hcond : forall k st, at_step k st -> cond st = Nat.ltb k (nsteps c).
    Hypothesis Hpass : forall k st, at_step k st -> k < nsteps c ->
      pass st = do r <- body (left k) (half k) (right k) (ls_out st) (ls_tracker st);
        let '(out, tr, ws) := r in
        let reads := ls_reads st ++ [(true, left k); (false, half k); (true, right k)] in
        let warnings := ls_warnings st ++ map (fun x => (time k, x)) ws in
        let steps := ls_steps st ++ [(left k, ls_out st, out)] in
        if written c time (S k) then
          OK (mkls N _ (left (S k)) (half (S k)) (right (S k)) (flush out) (store tr out) reads
                (ls_files st ++ [(time (S k), stored out)]) (ls_log st ++ [(time (S k), print tr out)]) warnings steps)
        else OK (mkls N _ (left (S k)) (half (S k)) (right (S k)) out tr reads (ls_files st) (ls_log st) warnings steps).
    Hypothesis tdef : tracker N.
    Definition st0 : loop_state N Out :=
      mkls N _ (left 0) (half 0) (right 0) init tr0 [(true, time 0)] [] [] [] [].

    Lemma traj_of_run fuel r :
      gloop cond pass fuel st0 = OK (Some r) ->
      exists o a tr tr' ws, traj c init tr0 (fun k => body (left k) (half k) (right k)) flush stored store print
        time left half right r o a tr tr' ws.
    Proof.
      intros H. destruct (gloop_inv _ _ _ _ _ H) as (K & s & H0 & HK & Hc & Hs).
      (* each pass in terms of the body *)
      assert (Hat : forall k, k <= K -> at_step k (s k) /\ k <= nsteps c).
      { induction k; intros Hk.
        - rewrite H0. split; [repeat split|lia].
        - destruct (IHk ltac:(lia)) as [A1 A2]. destruct (Hs k ltac:(lia)) as [C1 P1].
          rewrite (Hcond k _ A1) in C1. apply Nat.ltb_lt in C1. split; [|lia].
          rewrite (Hpass k _ A1 C1) in P1.
          destruct (body (left k) (half k) (right k) (ls_out (s k)) (ls_tracker (s k))) as [[[out tr] ws]|]; [|discriminate].
          cbn [bind] in P1. destruct (written c time (S k)); injection P1 as <-; repeat split. }
      assert (EK : K = nsteps c).
      { destruct (Hat K ltac:(lia)) as [A1 A2]. rewrite HK in A1. rewrite (Hcond K r A1) in Hc. apply Nat.ltb_ge in Hc. lia. }
      pose (bodyk := fun k => body (left k) (half k) (right k) (ls_out (s k)) (ls_tracker (s k))).
      pose (res_of := fun k => match bodyk k with OK x => x | Err _ => (init, tdef, []) end).
      exists (fun k => ls_out (s k)), (fun k => match k with O => init | S k => fst (fst (res_of k)) end),
        (fun k => ls_tracker (s k)), (fun k => match k with O => tdef | S k => snd (fst (res_of k)) end), (fun k => snd (res_of k)).
      assert (Hb : forall k, k < K -> bodyk k = OK (res_of k) /\
        s (S k) = (let '(out, tr, ws) := res_of k in
        let reads := ls_reads (s k) ++ [(true, left k); (false, half k); (true, right k)] in
        let warnings := ls_warnings (s k) ++ map (fun x => (time k, x)) ws in
        let steps := ls_steps (s k) ++ [(left k, ls_out (s k), out)] in
        if written c time (S k) then
          mkls N _ (left (S k)) (half (S k)) (right (S k)) (flush out) (store tr out) reads
                (ls_files (s k) ++ [(time (S k), stored out)]) (ls_log (s k) ++ [(time (S k), print tr out)]) warnings steps
        else mkls N _ (left (S k)) (half (S k)) (right (S k)) out tr reads (ls_files (s k)) (ls_log (s k)) warnings steps)).
      { intros k Hk. destruct (Hat k ltac:(lia)) as [A1 A2]. destruct (Hs k Hk) as [_ P1].
        rewrite (Hpass k _ A1 ltac:(lia)) in P1. unfold res_of. fold (bodyk k) in P1. destruct (bodyk k) as [[[out tr] ws]|]; [|discriminate].
        split; [reflexivity|]. cbn [bind] in P1. destruct (written c time (S k)); injection P1 as P1; now rewrite <- P1. }
      rewrite <- EK in *.
      assert (Hacc : forall k, k <= K ->
         ls_files (s k) = map (fun k => (time k, stored (match k with O => init | S k => fst (fst (res_of k)) end)))
                            (filter (written c time) (seq 1 k)) /\
         ls_log (s k) = map (fun k => (time k, print (match k with O => tdef | S k => snd (fst (res_of k)) end)
                                              (match k with O => init | S k => fst (fst (res_of k)) end)))
                            (filter (written c time) (seq 1 k)) /\
         ls_warnings (s k) = flat_map (fun k => map (fun x => (time k, x)) (snd (res_of k))) (seq 0 k) /\
         ls_reads (s k) = (true, time 0) :: flat_map (fun k => [(true, left k); (false, half k); (true, right k)]) (seq 0 k) /\
         ls_steps (s k) = map (fun k => (left k, ls_out (s k), fst (fst (res_of k)))) (seq 0 k)).
      { induction k; intros Hk.
        - rewrite H0. repeat split.
        - destruct (IHk ltac:(lia)) as (I1 & I2 & I3 & I4 & I5). destruct (Hb k ltac:(lia)) as [B1 B2].
          rewrite !seq_snoc, !filter_snoc, !map_app, !flat_map_app. cbn [plus].
          destruct (res_of k) as [[out tr] ws] eqn:Er. rewrite B2. cbv zeta.
          change (flat_map _ [k]) with ([(true, left k); (false, half k); (true, right k)] ++ []) at 2.
          destruct (written c time (S k)) eqn:Ew; cbn [ls_files ls_log ls_warnings ls_reads ls_steps flat_map map fst snd];
          rewrite ?I1, ?I2, ?I3, ?I4, ?I5, ?Er, ?app_nil_r; cbn [fst snd app]; rewrite ?Er; auto. }
      constructor.
      - now rewrite H0.
      - now rewrite H0.
      - intros k Hk. rewrite <- EK in Hk. destruct (Hb k Hk) as [B1 _]. unfold bodyk in B1. rewrite B1.
        destruct (res_of k) as [[? ?] ?]; reflexivity.
      - intros k Hk. rewrite <- EK in Hk. destruct (Hb k Hk) as [_ B2]. rewrite B2.
        destruct (res_of k) as [[? ?] ?]. now destruct (written c time (S k)).
      - intros k Hk. rewrite <- EK in Hk. destruct (Hb k Hk) as [_ B2]. rewrite B2.
        destruct (res_of k) as [[? ?] ?]. now destruct (written c time (S k)).
      - rewrite <- EK, HK. reflexivity.
      - rewrite <- EK. rewrite <- HK. apply Hacc. lia.
      - rewrite <- EK. rewrite <- HK. apply Hacc. lia.
      - rewrite <- EK. rewrite <- HK. apply Hacc. lia.
      - rewrite <- EK. rewrite <- HK. apply Hacc. lia.
      - rewrite <- EK. rewrite <- HK. apply (Hacc K). lia.
    Qed.

    (** if the body never fails on outputs that satisfy [P], the run completes *)
    Lemma run_of_body (P : Out -> Prop) :
      P init -> (forall x, P x -> P (flush x)) ->
      (forall k x tr, k < nsteps c -> P x -> exists x' tr' ws, body (left k) (half k) (right k) x tr = OK (x', tr', ws) /\ P x') ->
      exists r, gloop cond pass (S (nsteps c)) st0 = OK (Some r).
    Proof.
      intros P0 Pf Pb.
      assert (Hs : forall k, k <= nsteps c -> exists s : nat -> loop_state N Out, s 0 = st0 /\ at_step k (s k) /\ P (ls_out (s k)) /\
        forall j, j < k -> at_step j (s j) /\ pass (s j) = OK (s (S j))).
      { induction k; intros Hk.
        - exists (fun _ => st0). repeat split; auto; lia.
        - destruct (IHk ltac:(lia)) as (s & S0 & A & Q & St).
          destruct (Pb k (ls_out (s k)) (ls_tracker (s k)) ltac:(lia) Q) as (x' & t' & ws & B & Q').
          pose proof (Hpass k (s k) A ltac:(lia)) as E. rewrite B in E. cbn [bind] in E.
          match type of E with _ = if _ then OK ?x else OK ?y =>
            exists (fun j => if Nat.eqb j (S k) then (if written c time (S k) then x else y) else s j) end.
          split; [exact S0|]. rewrite Nat.eqb_refl. split; [destruct (written c time (S k)); repeat split|].
          split; [destruct (written c time (S k)); cbn [ls_out]; auto|].
          intros j Hj. destruct (Nat.eqb_spec j (S k)); [lia|]. destruct (Nat.eqb_spec (S j) (S k)).
          + assert (j = k) by lia. subst j. split; [exact A|]. rewrite E. now destruct (written c time (S k)).
          + apply St. lia. }
      destruct (Hs (nsteps c) ltac:(lia)) as (s & S0 & A & Q & St).
      exists (s (nsteps c)). rewrite <- S0. apply gloop_run.
      - rewrite (Hcond _ _ A). apply Nat.ltb_irrefl.
      - intros k Hk. destruct (St k Hk) as [A1 P1]. split; [|exact P1].
        rewrite (Hcond _ _ A1). now apply Nat.ltb_lt.
    Qed.
  End Dir.

  (** ** the two directions *)
  Definition hf (c : runcfg N) (k : nat) : Z := (tfwd c k + rc_dt c / 2)%Z.
  Definition hb (c : runcfg N) (k : nat) : Z := (tbwd c k - rc_dt c / 2)%Z.
  Definition fwd_traj (c : runcfg N) (w : world N) init :=
    traj c init (store_fwd (w_coslat w) (rc_periodic c) tracker0 init)
      (fun k => fwd_body c w (tfwd c k) (hf c k) (tfwd c (S k)))
      fwd_flush fwd_stored (store_fwd (w_coslat w) (rc_periodic c)) (print_fwd (w_coslat w) (rc_periodic c))
      (tfwd c) (tfwd c) (hf c) (fun k => tfwd c (S k)).
  Definition bwd_traj (c : runcfg N) (w : world N) init :=
    traj c init (store_bwd (w_coslat w) (rc_periodic c) tracker0 init)
      (fun k => bwd_body c w (tbwd c (S k)) (hb c k) (tbwd c k))
      bwd_flush bwd_stored (store_bwd (w_coslat w) (rc_periodic c)) (print_bwd (w_coslat w) (rc_periodic c))
      (tbwd c) (fun k => tbwd c (S k)) (hb c) (tbwd c).

  Lemma fwd_cond c k (st : loop_state N (fwd_out N)) : (0 < rc_dt c)%Z ->
    at_step (tfwd c) (hf c) (fun k => tfwd c (S k)) k st -> Z.leb (ls_t1 st) (rc_end c) = Nat.ltb k (nsteps c).
  Proof.
    intros H (_ & _ & ->). pose proof (nsteps_spec c k H) as Q.
    destruct (Z.leb_spec (tfwd c (S k)) (rc_end c)), (Nat.ltb_spec k (nsteps c)); auto; lia.
  Qed.
  Lemma bwd_cond c k (st : loop_state N (bwd_out N)) : (0 < rc_dt c)%Z ->
    at_step (fun k => tbwd c (S k)) (hb c) (tbwd c) k st -> Z.leb (rc_start c) (ls_t0 st) = Nat.ltb k (nsteps c).
  Proof.
    intros H (-> & _ & _). pose proof (nsteps_spec_b c k H) as Q.
    destruct (Z.leb_spec (rc_start c) (tbwd c (S k))), (Nat.ltb_spec k (nsteps c)); auto; lia.
  Qed.
  Lemma tfwd_S c k : (tfwd c k + rc_dt c = tfwd c (S k))%Z.
  Proof. unfold tfwd. lia. Qed.
  Lemma tbwd_S c k : (tbwd c k - rc_dt c = tbwd c (S k))%Z.
  Proof. unfold tbwd. lia. Qed.
  Lemma tfwd_0 c : tfwd c 0 = rc_start c.
  Proof. unfold tfwd. lia. Qed.
  Lemma tbwd_0 c : tbwd c 0 = rc_end c.
  Proof. unfold tbwd. lia. Qed.
  Lemma fwd_pass_eq c w k (st : loop_state N (fwd_out N)) : (0 < rc_dt c)%Z ->
    at_step (tfwd c) (hf c) (fun k => tfwd c (S k)) k st -> k < nsteps c ->
    fwd_pass c w st = do r <- fwd_body c w (tfwd c k) (hf c k) (tfwd c (S k)) (ls_out st) (ls_tracker st);
        let '(out, tr, ws) := r in
        let reads := ls_reads st ++ [(true, tfwd c k); (false, hf c k); (true, tfwd c (S k))] in
        let warnings := ls_warnings st ++ map (fun x => (tfwd c k, x)) ws in
        let steps := ls_steps st ++ [(tfwd c k, ls_out st, out)] in
        if written c (tfwd c) (S k) then
          OK (mkls N _ (tfwd c (S k)) (hf c (S k)) (tfwd c (S (S k))) (fwd_flush out)
                (store_fwd (w_coslat w) (rc_periodic c) tr out) reads
                (ls_files st ++ [(tfwd c (S k), fwd_stored out)])
                (ls_log st ++ [(tfwd c (S k), print_fwd (w_coslat w) (rc_periodic c) tr out)]) warnings steps)
        else OK (mkls N _ (tfwd c (S k)) (hf c (S k)) (tfwd c (S (S k))) out tr reads (ls_files st) (ls_log st) warnings steps).
  Proof.
    intros H (E0 & Eh & E1) Hk. unfold fwd_pass. rewrite E0, Eh, E1.
    destruct (fwd_body c w (tfwd c k) (hf c k) (tfwd c (S k)) (ls_out st) (ls_tracker st)) as [[[out tr] ws]|]; [|reflexivity].
    cbn [bind]. rewrite !tfwd_S, floor_eq.
    assert (Eh' : (hf c k + rc_dt c = hf c (S k))%Z) by (unfold hf; rewrite <- tfwd_S; lia). rewrite Eh'.
    assert (Ef : Z.ltb (rc_end c) (tfwd c (S (S k))) = Nat.eqb (S k) (nsteps c)).
    { pose proof (nsteps_spec c (S k) H). destruct (Z.ltb_spec (rc_end c) (tfwd c (S (S k)))), (Nat.eqb_spec (S k) (nsteps c)); auto; lia. }
    rewrite Ef. unfold written. destruct (_ || _)%bool; reflexivity.
  Qed.
  Lemma bwd_pass_eq c w k (st : loop_state N (bwd_out N)) : (0 < rc_dt c)%Z ->
    at_step (fun k => tbwd c (S k)) (hb c) (tbwd c) k st -> k < nsteps c ->
    bwd_pass c w st = do r <- bwd_body c w (tbwd c (S k)) (hb c k) (tbwd c k) (ls_out st) (ls_tracker st);
        let '(out, tr, ws) := r in
        let reads := ls_reads st ++ [(true, tbwd c (S k)); (false, hb c k); (true, tbwd c k)] in
        let warnings := ls_warnings st ++ map (fun x => (tbwd c k, x)) ws in
        let steps := ls_steps st ++ [(tbwd c (S k), ls_out st, out)] in
        if written c (tbwd c) (S k) then
          OK (mkls N _ (tbwd c (S (S k))) (hb c (S k)) (tbwd c (S k)) (bwd_flush out)
                (store_bwd (w_coslat w) (rc_periodic c) tr out) reads
                (ls_files st ++ [(tbwd c (S k), bwd_stored out)])
                (ls_log st ++ [(tbwd c (S k), print_bwd (w_coslat w) (rc_periodic c) tr out)]) warnings steps)
        else OK (mkls N _ (tbwd c (S (S k))) (hb c (S k)) (tbwd c (S k)) out tr reads (ls_files st) (ls_log st) warnings steps).
  Proof.
    intros H (E0 & Eh & E1) Hk. unfold bwd_pass. rewrite E0, Eh, E1.
    destruct (bwd_body c w (tbwd c (S k)) (hb c k) (tbwd c k) (ls_out st) (ls_tracker st)) as [[[out tr] ws]|]; [|reflexivity].
    cbn [bind]. rewrite !tbwd_S, floor_eq.
    assert (Eh' : (hb c k - rc_dt c = hb c (S k))%Z) by (unfold hb; rewrite <- tbwd_S; lia). rewrite Eh'.
    assert (Ef : Z.ltb (tbwd c (S (S k))) (rc_start c) = Nat.eqb (S k) (nsteps c)).
    { pose proof (nsteps_spec_b c (S k) H). destruct (Z.ltb_spec (tbwd c (S (S k))) (rc_start c)), (Nat.eqb_spec (S k) (nsteps c)); auto; lia. }
    rewrite Ef. unfold written. destruct (_ || _)%bool; reflexivity.
  Qed.

  (** every completed run has this shape *)
  Theorem fwd_run_traj c w prev r : (0 < rc_timestep c)%Z -> completes (fwd_run c w prev) r ->
    exists init, fwd_init c w prev = OK init /\
    exists o a tr tr' ws, fwd_traj c w init r o a tr tr' ws.
  Proof.
    intros Hdt [fuel H]. unfold fwd_run in H.
    destruct (fwd_init c w prev) as [init|] eqn:Ei; [|discriminate]. cbn [bind] in H. exists init. split; [reflexivity|].
    assert (Hd : (0 < rc_dt c)%Z) by (unfold rc_dt, usec; lia).
    rewrite fwd_loop_gloop in H.
    apply (traj_of_run c (fwd_body c w) fwd_flush fwd_stored (store_fwd (w_coslat w) (rc_periodic c))
      (print_fwd (w_coslat w) (rc_periodic c)) (fun s => Z.leb (ls_t1 s) (rc_end c)) (fwd_pass c w)
      (tfwd c) (tfwd c) (hf c) (fun k => tfwd c (S k)) init (store_fwd (w_coslat w) (rc_periodic c) tracker0 init)) with (fuel := fuel).
    - intros. now apply fwd_cond.
    - intros. now apply fwd_pass_eq.
    - exact tracker0.
    - rewrite <- H. f_equal. unfold st0, hf. rewrite <- tfwd_S, !tfwd_0. reflexivity.
  Qed.
  Theorem bwd_run_traj c w prev r : (0 < rc_timestep c)%Z -> completes (bwd_run c w prev) r ->
    exists init, bwd_init c w prev = OK init /\
    exists o a tr tr' ws, bwd_traj c w init r o a tr tr' ws.
  Proof.
    intros Hdt [fuel H]. unfold bwd_run in H.
    destruct (bwd_init c w prev) as [init|] eqn:Ei; [|discriminate]. cbn [bind] in H. exists init. split; [reflexivity|].
    assert (Hd : (0 < rc_dt c)%Z) by (unfold rc_dt, usec; lia).
    rewrite bwd_loop_gloop in H.
    apply (traj_of_run c (bwd_body c w) bwd_flush bwd_stored (store_bwd (w_coslat w) (rc_periodic c))
      (print_bwd (w_coslat w) (rc_periodic c)) (fun s => Z.leb (rc_start c) (ls_t0 s)) (bwd_pass c w)
      (tbwd c) (fun k => tbwd c (S k)) (hb c) (tbwd c) init (store_bwd (w_coslat w) (rc_periodic c) tracker0 init)) with (fuel := fuel).
    - intros. now apply bwd_cond.
    - intros. now apply bwd_pass_eq.
    - exact tracker0.
    - rewrite <- H. f_equal. unfold st0, hb. rewrite <- tbwd_S, !tbwd_0. reflexivity.
  Qed.
  (** and a run whose steps cannot fail completes *)
  Theorem fwd_run_completes c w prev init (P : fwd_out N -> Prop) : (0 < rc_timestep c)%Z ->
    fwd_init c w prev = OK init -> P init -> (forall x, P x -> P (fwd_flush x)) ->
    (forall k x tr, k < nsteps c -> P x -> exists x' tr' ws, fwd_body c w (tfwd c k) (hf c k) (tfwd c (S k)) x tr = OK (x', tr', ws) /\ P x') ->
    exists r, completes (fwd_run c w prev) r.
  Proof.
    intros Hdt Ei P0 Pf Pb. assert (Hd : (0 < rc_dt c)%Z) by (unfold rc_dt, usec; lia).
    destruct (run_of_body c (fwd_body c w) fwd_flush fwd_stored (store_fwd (w_coslat w) (rc_periodic c))
      (print_fwd (w_coslat w) (rc_periodic c)) (fun s => Z.leb (ls_t1 s) (rc_end c)) (fwd_pass c w)
      (tfwd c) (tfwd c) (hf c) (fun k => tfwd c (S k)) init (store_fwd (w_coslat w) (rc_periodic c) tracker0 init)) with (P := P) as [r Hr]; auto.
    - intros. now apply fwd_cond.
    - intros. now apply fwd_pass_eq.
    - exists r, (S (nsteps c)). unfold fwd_run. rewrite Ei. cbn [bind]. rewrite fwd_loop_gloop, <- Hr.
      f_equal. unfold st0, hf. rewrite <- tfwd_S, !tfwd_0. reflexivity.
  Qed.
  Theorem bwd_run_completes c w prev init (P : bwd_out N -> Prop) : (0 < rc_timestep c)%Z ->
    bwd_init c w prev = OK init -> P init -> (forall x, P x -> P (bwd_flush x)) ->
    (forall k x tr, k < nsteps c -> P x -> exists x' tr' ws, bwd_body c w (tbwd c (S k)) (hb c k) (tbwd c k) x tr = OK (x', tr', ws) /\ P x') ->
    exists r, completes (bwd_run c w prev) r.
  Proof.
    intros Hdt Ei P0 Pf Pb. assert (Hd : (0 < rc_dt c)%Z) by (unfold rc_dt, usec; lia).
    destruct (run_of_body c (bwd_body c w) bwd_flush bwd_stored (store_bwd (w_coslat w) (rc_periodic c))
      (print_bwd (w_coslat w) (rc_periodic c)) (fun s => Z.leb (rc_start c) (ls_t0 s)) (bwd_pass c w)
      (tbwd c) (fun k => tbwd c (S k)) (hb c) (tbwd c) init (store_bwd (w_coslat w) (rc_periodic c) tracker0 init)) with (P := P) as [r Hr]; auto.
    - intros. now apply bwd_cond.
    - intros. now apply bwd_pass_eq.
    - exists r, (S (nsteps c)). unfold bwd_run. rewrite Ei. cbn [bind]. rewrite bwd_loop_gloop, <- Hr.
      f_equal. unfold st0, hb. rewrite <- tbwd_S, !tbwd_0. reflexivity.
  Qed.
End Sched.
