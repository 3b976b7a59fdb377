(** * C57: three-hourly CMIP fluxes
    preprocessing/cmip.py l.88-135 (load_cmip_var, resample_3hr_var, assert_correct_starttime). *)
From Coq Require Import Reals Lra Lia Arith ZArith List Bool.
From Verif Require Import Num Arr.
Import ListNotations.
Local Open Scope R_scope.
Local Open Scope list_scope.

(** Times are microseconds since an epoch at midnight; a day has 86400 s in every cftime calendar. *)
Definition usec_min : Z := 60000000.
Definition usec_hour : Z := 60 * usec_min.
Definition usec_day : Z := 24 * usec_hour.
(** ** Model *)
(** DataArray.dt.hour, DataArray.dt.minute *)
Definition dt_hour (t : Z) : Z := (t mod usec_day) / usec_hour.
Definition dt_minute (t : Z) : Z := (t mod usec_hour) / usec_min.
(** isel(time=slice(0, None, 2)) and isel(time=slice(1, None, 2)) *)
Fixpoint evens {A} (l : list A) : list A := match l with [] => [] | [a] => [a] | a :: _ :: t => a :: evens t end.
Definition odds {A} (l : list A) : list A := match l with [] => [] | _ :: t => evens t end.
(** np.repeat(l, repeats=2) *)
Definition repeat2 {A} (l : list A) : list A := flat_map (fun a => [a; a]) l.
(** cmip.py l.129-135: only hour and minute of the first time are looked at *)
Definition assert_correct_starttime (times : list Z) : res unit :=
  match times with
  | [] => Err IndexError
  | t :: _ => if Z.eqb (dt_hour t) 1 && Z.eqb (dt_minute t) 30 then OK tt else Err ValueError
  end.
(** cmip.py l.117-126.  A field is a function of the grid point ([P]); the assignment of the new time
    axis fails if it has another length; the two operands of the sum have the same times, so
    xarray's alignment does nothing. *)
Definition resample_3hr_var {P} (times : list Z) (data : list (P -> R)) : res (list Z * list (P -> R)) :=
  do _ <- assert_correct_starttime times;
  let new := repeat2 (map (fun t => t + (4 * usec_hour + 30 * usec_min))%Z (evens times)) in
  if negb (Nat.eqb (List.length new) (List.length times)) then Err ValueError else
  OK (evens new, map (fun ab p => (fst ab p + snd ab p) / 2) (combine (evens data) (odds data))).
(** DataArray.sel(time=t): exact match, KeyError otherwise *)
Fixpoint sel_time {P} (t : Z) (times : list Z) (data : list (P -> R)) : res (P -> R) :=
  match times, data with
  | t' :: times, f :: data => if Z.eqb t' t then OK f else sel_time t times data
  | _, _ => Err KeyError
  end.
(** cmip.py l.88-114 for a three-hourly variable; [scale] is 1/LATENT_HEAT for hfls and 1 otherwise *)
Definition load_cmip_3hr {P} (scale : R) (times : list Z) (data : list (P -> R)) (t : Z) : res (P -> R) :=
  do r <- resample_3hr_var times data;
  sel_time t (fst r) (map (fun f p => f p * scale) (snd r)).

(** ** Specification *)
Fixpoint total {P} (data : list (P -> R)) (p : P) : R := match data with [] => 0 | f :: l => f p + total l p end.
(** a time axis of three-hour means, labelled in the middle: [n] steps from 01:30 of the day that begins at [day] *)
Definition three_hourly (day : Z) (n : nat) : list Z := map (fun k => day + usec_hour + 30 * usec_min + 3 * usec_hour * Z.of_nat k)%Z (seq 0 n).

(** ** Lemmas *)
Lemma evens_length {A} : forall n (l : list A), (List.length l <= n)%nat -> List.length (evens l) = ((List.length l + 1) / 2)%nat.
Proof.
  induction n; intros [|a [|b l]] H; cbn [List.length evens] in *; try lia; try reflexivity.
  rewrite IHn by lia. replace (S (S (List.length l)) + 1)%nat with ((List.length l + 1) + 1 * 2)%nat by lia. rewrite Nat.div_add by lia. lia.
Qed.
Lemma evens_len {A} (l : list A) : List.length (evens l) = ((List.length l + 1) / 2)%nat.
Proof. eapply evens_length; eauto. Qed.
Lemma odds_len {A} (l : list A) : List.length (odds l) = (List.length l / 2)%nat.
Proof. destruct l; [reflexivity|]. cbn [odds]. rewrite evens_len. cbn [List.length]. now replace (List.length l + 1)%nat with (S (List.length l)) by lia. Qed.
Lemma evens_nth {A} (d : A) : forall k l, nth k (evens l) d = nth (2 * k) l d.
Proof.
  induction k; intros [|a [|b l]]; try reflexivity.
  - replace (2 * S k)%nat with (S (S (2 * k))) by lia. cbn [evens nth]. destruct k; reflexivity.
  - replace (2 * S k)%nat with (S (S (2 * k))) by lia. cbn [evens nth]. apply IHk.
Qed.
Lemma odds_nth {A} (d : A) k l : nth k (odds l) d = nth (2 * k + 1) l d.
Proof. destruct l; [cbn; destruct k; [reflexivity|now destruct (_ + _)%nat]|]. cbn [odds]. rewrite evens_nth. now replace (2 * k + 1)%nat with (S (2 * k)) by lia. Qed.
Lemma repeat2_length {A} (l : list A) : List.length (repeat2 l) = (2 * List.length l)%nat.
Proof. unfold repeat2. induction l; cbn [flat_map app List.length]; lia. Qed.
Lemma evens_repeat2 {A} (l : list A) : evens (repeat2 l) = l.
Proof. unfold repeat2. induction l; cbn; [reflexivity|now f_equal]. Qed.
Lemma even_half n : (2 * ((n + 1) / 2) =? n)%nat = Nat.even n.
Proof.
  pose proof (Nat.div_mod (n + 1) 2 ltac:(lia)). pose proof (Nat.mod_upper_bound (n + 1) 2 ltac:(lia)).
  destruct (Nat.even n) eqn:E.
  - apply Nat.even_spec in E as [h Hh]. apply Nat.eqb_eq. lia.
  - assert (Nat.odd n = true) by (unfold Nat.odd; now rewrite E). apply Nat.odd_spec in H1 as [h Hh]. apply Nat.eqb_neq. lia.
Qed.

(** ** C57 *)
(** Exactly the series with an even, positive number of steps whose first time is 01:30 (up to seconds)
    are accepted; the result has half as many steps, and each is the mean of two consecutive ones. *)
Theorem C57_accepts {P} times (data : list (P -> R)) : List.length data = List.length times ->
  (exists r, resample_3hr_var times data = OK r) <->
  (times <> [] /\ Nat.even (List.length times) = true /\ (usec_hour + 30 * usec_min <= hd 0%Z times mod usec_day < usec_hour + 31 * usec_min)%Z).
Proof.
  intros L. unfold resample_3hr_var, assert_correct_starttime. destruct times as [|t times]; [split; [intros [r E]; discriminate|intros [H _]; congruence]|].
  set (l := t :: times) in *. cbn [hd l].
  assert (Hs : (Z.eqb (dt_hour t) 1 && Z.eqb (dt_minute t) 30 = true) <-> (usec_hour + 30 * usec_min <= t mod usec_day < usec_hour + 31 * usec_min)%Z).
  { rewrite andb_true_iff, !Z.eqb_eq. unfold dt_hour, dt_minute.
    assert (E : (t mod usec_hour = (t mod usec_day) mod usec_hour)%Z).
    { assert (Hd : (t = (24 * (t / usec_day)) * usec_hour + t mod usec_day)%Z) by (pose proof (Z_div_mod_eq_full t usec_day); unfold usec_day in *; lia).
      rewrite Hd at 1. rewrite Z.add_comm, Z.mod_add by (unfold usec_hour, usec_min; lia). reflexivity. }
    rewrite E. pose proof (Z.mod_pos_bound t usec_day ltac:(unfold usec_day, usec_hour, usec_min; lia)) as B. set (x := (t mod usec_day)%Z) in *. clearbody x. clear E.
    unfold usec_day, usec_hour, usec_min in *. split.
    - intros [H1 H2]. pose proof (Z_div_mod_eq_full x (60 * 60000000)). pose proof (Z.mod_pos_bound x (60 * 60000000) ltac:(lia)).
      pose proof (Z_div_mod_eq_full (x mod (60 * 60000000)) 60000000). pose proof (Z.mod_pos_bound (x mod (60 * 60000000)) 60000000 ltac:(lia)). lia.
    - intros [H1 H2]. assert (x / (60 * 60000000) = 1)%Z by (symmetry; apply (Z.div_unique _ _ 1 (x - 60 * 60000000)); lia). split; [assumption|].
      rewrite Z.mod_eq, H by lia. symmetry. apply (Z.div_unique _ _ 30 (x - 60 * 60000000 * 1 - 30 * 60000000)); lia. }
  destruct (Z.eqb (dt_hour t) 1 && Z.eqb (dt_minute t) 30) eqn:Eb; cbn [bind].
  - rewrite repeat2_length, map_length, evens_len, even_half. destruct (Nat.even (List.length l)) eqn:Ev; cbn [negb].
    + split; [intros _|eauto]. split; [discriminate|]. split; [reflexivity|]. now apply Hs.
    + split; [intros [r E]; discriminate|]. intros (_ & H & _). discriminate.
  - split; [intros [r E]; discriminate|]. intros (_ & _ & H). apply Hs in H. discriminate.
Qed.
Lemma resample_ok {P} times (data : list (P -> R)) t' d' : List.length data = List.length times -> resample_3hr_var times data = OK (t', d') ->
  exists m, (0 < m)%nat /\ List.length times = (2 * m)%nat /\ t' = map (fun t => t + (4 * usec_hour + 30 * usec_min))%Z (evens times) /\
    d' = map (fun ab p => (fst ab p + snd ab p) / 2) (combine (evens data) (odds data)).
Proof.
  intros L E. assert (X : exists r, resample_3hr_var times data = OK r) by eauto. apply (C57_accepts times data L) in X as (Hne & Hev & _).
  unfold resample_3hr_var in E. destruct (assert_correct_starttime times); [|discriminate]. cbn [bind] in E. destruct (negb _); [discriminate|].
  apply Nat.even_spec in Hev as [m Hm]. exists m. injection E as <- <-. split; [destruct times; [congruence|cbn [List.length] in Hm; lia]|]. split; [exact Hm|]. rewrite evens_repeat2. auto.
Qed.
Theorem C57_means {P} times (data : list (P -> R)) t' d' : List.length data = List.length times -> resample_3hr_var times data = OK (t', d') ->
  List.length times = (2 * List.length t')%nat /\ List.length d' = List.length t' /\
  (forall k, (k < List.length t')%nat -> nth k t' 0%Z = (nth (2 * k) times 0 + (4 * usec_hour + 30 * usec_min))%Z /\
    forall p, nth k d' (fun _ => 0) p = (nth (2 * k) data (fun _ => 0) p + nth (2 * k + 1) data (fun _ => 0) p) / 2) /\
  (* the total over the period is preserved: twice the hours, half the steps *)
  forall p, total d' p * 6 = total data p * 3.
Proof.
  intros L E. destruct (resample_ok _ _ _ _ L E) as (m & Hm & Lt & -> & ->). rewrite !map_length, combine_length, evens_len, evens_len, odds_len, L, Lt.
  assert (Em : ((2 * m + 1) / 2 = m)%nat) by (symmetry; apply (Nat.div_unique _ _ m 1); lia). assert (Em' : (2 * m / 2 = m)%nat) by (symmetry; apply (Nat.div_unique _ _ m 0); lia).
  rewrite Em, Em', Nat.min_id. split; [reflexivity|]. split; [reflexivity|]. split.
  - intros k Hk. split.
    + rewrite (nth_indep _ 0%Z ((fun t => t + (4 * usec_hour + 30 * usec_min))%Z 0%Z)) by (rewrite map_length, evens_len, Lt; lia).
      rewrite (map_nth (fun t => t + (4 * usec_hour + 30 * usec_min))%Z). now rewrite evens_nth.
    + intros p. set (F := fun (ab : (P -> R) * (P -> R)) p => (fst ab p + snd ab p) / 2).
      rewrite (nth_indep _ (fun _ => 0) (F (fun _ => 0, fun _ => 0))) by (rewrite map_length, combine_length, evens_len, odds_len, L, Lt; lia).
      rewrite (map_nth F), combine_nth by (rewrite evens_len, odds_len, L, Lt; lia). unfold F. cbn [fst snd]. rewrite evens_nth, odds_nth. reflexivity.
  - intros p. clear E Em Em' Hm. assert (Ld : List.length data = (2 * m)%nat) by congruence. clear L Lt times. revert data Ld. induction m; intros data Ld.
    + destruct data; [cbn; lra|discriminate].
    + destruct data as [|a [|b data]]; cbn [List.length] in Ld; try lia. specialize (IHm data ltac:(lia)).
      change (evens (a :: b :: data)) with (a :: evens data). change (odds (a :: b :: data)) with (evens (b :: data)).
      assert (Eo : evens (b :: data) = b :: odds data) by (destruct data; reflexivity). rewrite Eo. cbn [combine map total fst snd]. lra.
Qed.
(** On a regular axis of three-hour means, what is loaded at time [t] is the mean over the six hours that
    end at [t]: [t] is an exact multiple of six hours after the first midnight, the two averaged values are
    those whose intervals tile [t - 6 h, t]; every other time, the first midnight included, is a KeyError. *)
Lemma sel_time_ok {P} t : forall times (data : list (P -> R)), List.length data = List.length times -> NoDup times ->
  (forall k, (k < List.length times)%nat -> nth k times 0%Z = t -> sel_time t times data = OK (nth k data (fun _ => 0))) /\
  (~ In t times -> sel_time t times data = Err KeyError).
Proof.
  induction times as [|t0 times IH]; intros [|f data] L N; try discriminate; [split; [cbn; lia|reflexivity]|].
  inversion N as [|? ? Nin N']; subst. destruct (IH data ltac:(cbn in L; lia) N') as [H1 H2]. cbn [sel_time]. split.
  - intros [|k] Hk Ek; cbn in Ek; [subst; now rewrite Z.eqb_refl|]. cbn [List.length] in Hk. destruct (Z.eqb_spec t0 t) as [Et|Et].
    + exfalso. apply Nin. rewrite Et, <- Ek. apply nth_In. lia.
    + rewrite (H1 k) by (auto; lia). reflexivity.
  - intros Nn. destruct (Z.eqb_spec t0 t) as [Et|Et]; [exfalso; apply Nn; now left|]. apply H2. intros C. apply Nn. now right.
Qed.
Lemma three_hourly_nth day n k : (k < n)%nat -> nth k (three_hourly day n) 0%Z = (day + usec_hour + 30 * usec_min + 3 * usec_hour * Z.of_nat k)%Z.
Proof.
  intros H. unfold three_hourly. set (f := fun k => (day + usec_hour + 30 * usec_min + 3 * usec_hour * Z.of_nat k)%Z).
  rewrite (nth_indep _ 0%Z (f 0%nat)) by (now rewrite map_length, seq_length). rewrite (map_nth f), seq_nth by exact H. reflexivity.
Qed.
Theorem C57_loaded_flux {P} scale day m (data : list (P -> R)) t : (0 < m)%nat -> (day mod usec_day = 0)%Z -> List.length data = (2 * m)%nat ->
  let times := three_hourly day (2 * m) in
  (forall j, (j < m)%nat -> t = (day + 6 * usec_hour * Z.of_nat (S j))%Z ->
    (* the two intervals tile the six hours before t *)
    (nth (2 * j) times 0 - 90 * usec_min = t - 6 * usec_hour /\ nth (2 * j) times 0 + 90 * usec_min = nth (2 * j + 1) times 0 - 90 * usec_min /\ nth (2 * j + 1) times 0 + 90 * usec_min = t)%Z /\
    exists f, load_cmip_3hr scale times data t = OK f /\ forall p, f p = (nth (2 * j) data (fun _ => 0) p + nth (2 * j + 1) data (fun _ => 0) p) / 2 * scale) /\
  ((forall j, (j < m)%nat -> t <> (day + 6 * usec_hour * Z.of_nat (S j))%Z) -> load_cmip_3hr scale times data t = Err KeyError).
Proof.
  intros Hm Hday Ld times. assert (Lt : List.length times = (2 * m)%nat) by (unfold times, three_hourly; now rewrite map_length, seq_length).
  assert (Hr : exists r, resample_3hr_var times data = OK r).
  { apply C57_accepts; [congruence|]. split; [intros C; rewrite C in Lt; cbn in Lt; lia|]. split; [rewrite Lt; apply Nat.even_spec; now exists m|].
    assert (E0 : hd 0%Z times = (day + usec_hour + 30 * usec_min)%Z).
    { unfold times. replace (hd 0%Z (three_hourly day (2 * m))) with (nth 0 (three_hourly day (2 * m)) 0%Z) by (destruct (three_hourly day (2 * m)); reflexivity). rewrite three_hourly_nth by lia. lia. }
    rewrite E0. replace (day + usec_hour + 30 * usec_min)%Z with (usec_hour + 30 * usec_min + (day / usec_day) * usec_day)%Z by (pose proof (Z_div_mod_eq_full day usec_day); unfold usec_day, usec_hour, usec_min in *; lia).
    rewrite Z.mod_add by (unfold usec_day, usec_hour, usec_min; lia). rewrite Z.mod_small by (unfold usec_day, usec_hour, usec_min; lia). unfold usec_hour, usec_min; lia. }
  destruct Hr as [[t' d'] Hr]. destruct (C57_means times data t' d' ltac:(congruence) Hr) as (L2 & L3 & HK & _). rewrite Lt in L2. assert (Lt' : List.length t' = m) by lia.
  assert (Ht' : forall k, (k < m)%nat -> nth k t' 0%Z = (day + 6 * usec_hour * Z.of_nat (S k))%Z).
  { intros k Hk. rewrite (proj1 (HK k ltac:(lia))). unfold times. rewrite three_hourly_nth by lia. unfold usec_hour, usec_min. lia. }
  assert (N : NoDup t').
  { apply (NoDup_nth t' 0%Z). intros i j Hi Hj E. rewrite !Ht' in E by lia. unfold usec_hour, usec_min in E. lia. }
  unfold load_cmip_3hr. rewrite Hr. cbn [bind fst snd]. set (G := fun (f : P -> R) p => f p * scale).
  destruct (sel_time_ok t t' (map G d') ltac:(rewrite map_length; lia) N) as [S1 S2]. split.
  - intros j Hj Et. split.
    + unfold times. rewrite !three_hourly_nth by lia. subst t. unfold usec_hour, usec_min. lia.
    + exists (G (nth j d' (fun _ => 0))). split.
      * rewrite (S1 j) by (try lia; rewrite Ht' by lia; congruence). f_equal.
        rewrite (nth_indep _ (fun _ => 0) (G (fun _ => 0))) by (rewrite map_length; lia). apply map_nth.
      * intros p. unfold G. rewrite (proj2 (HK j ltac:(lia)) p). reflexivity.
  - intros Hn. apply S2. intros C. destruct (In_nth _ _ 0%Z C) as (k & Hk & Ek). apply (Hn k); [lia|]. rewrite <- Ek. apply Ht'. lia.
Qed.
Example C57_witness : exists f, load_cmip_3hr 1 (three_hourly (3 * usec_day) 4) [fun n : nat => 1; fun n => 3; fun n => INR n; fun n => 0] (3 * usec_day + 12 * usec_hour)%Z = OK f /\ f 5%nat = 5 / 2.
Proof.
  destruct (C57_loaded_flux 1 (3 * usec_day) 2 [fun n : nat => 1; fun n => 3; fun n => INR n; fun n => 0] (3 * usec_day + 12 * usec_hour)%Z ltac:(lia) ltac:(reflexivity) ltac:(reflexivity)) as [H _].
  destruct (H 1%nat ltac:(lia) ltac:(reflexivity)) as (_ & f & E & Hf). exists f. split; [exact E|]. rewrite Hf. cbn. lra.
Qed.
