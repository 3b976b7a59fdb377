(** * Calendars, date formatting and file names (model)

    cftime dates are modelled by a number of microseconds since 1970-01-01 00:00 in the
    calendar of the run.  This file models the decoding of such a number into year, month,
    day, hour, minute, second for the six cftime calendars (utils/calendar.py l.14-53,
    config.py CALENDAR_TYPES), strftime, and the file names built from it (tracking/io.py
    l.24-31, l.116, preprocessing/shared.py l.221).

    Simplification: years 1 to 9999.  cftime pads years below 1000 with blanks, the model
    with zeros; theorems about strings are for years from 1000. *)
From Coq Require Import Arith Lia Bool List ZArith String Ascii.
From Verif Require Import Num Run.
Import ListNotations.
Local Open Scope Z_scope.

(** config.py l.27-37: CALENDAR_TYPES, up to synonyms *)
Inductive calendar := Standard | ProlepticGregorian | Julian | NoLeap | AllLeap | Day360.

(** cftime: _is_leap *)
Definition leap (c : calendar) (y : Z) : bool :=
  let julian := Z.eqb (y mod 4) 0 in
  let gregorian := (Z.eqb (y mod 4) 0 && (negb (Z.eqb (y mod 100) 0) || Z.eqb (y mod 400) 0))%bool in
  match c with
  | Standard => if Z.leb y 1582 then julian else gregorian
  | ProlepticGregorian => gregorian
  | Julian => julian
  | NoLeap | Day360 => false
  | AllLeap => true
  end.

(** cftime: month_lengths.  In the mixed calendar, 4 October 1582 is followed by 15 October. *)
Definition month_days (c : calendar) (y : Z) : list Z :=
  let feb := if leap c y then 29 else 28 in
  let oct := match c with Standard => if Z.eqb y 1582 then 21 else 31 | _ => 31 end in
  match c with
  | Day360 => repeat 30 12
  | _ => [31; feb; 31; 30; 31; 30; 31; 31; 30; oct; 30; 31]
  end.
Definition zsum (l : list Z) : Z := fold_right Z.add 0 l.
Definition year_days (c : calendar) (y : Z) : Z := zsum (month_days c y).

(** the year containing day [d] (counted from the first day of year [y]), and the day in it *)
Fixpoint find_year (fuel : nat) (c : calendar) (y d : Z) : option (Z * Z) :=
  match fuel with
  | O => None
  | S fuel => if Z.ltb d (year_days c y) then Some (y, d) else find_year fuel c (y + 1) (d - year_days c y)
  end.
(** the month containing day [d] of the year, and the day in it *)
Fixpoint find_month (m : Z) (l : list Z) (d : Z) : Z * Z :=
  match l with
  | [] => (m, d)
  | n :: l => if Z.ltb d n then (m, d) else find_month (m + 1) l (d - n)
  end.
(** the number printed for the [d]-th day (from 0) of a month *)
Definition day_label (c : calendar) (y m d : Z) : Z :=
  match c with
  | Standard => if (Z.eqb y 1582 && Z.eqb m 10 && Z.leb 4 d)%bool then d + 11 else d + 1
  | _ => d + 1
  end.
(** date of the [n]-th day from 0001-01-01 *)
Definition civil_search (c : calendar) (n : Z) : option (Z * Z * Z) :=
  if Z.ltb n 0 then None else
  match find_year (Z.to_nat 9999) c 1 n with
  | None => None
  | Some (y, d) => let '(m, k) := find_month 1 (month_days c y) d in Some (y, m, day_label c y m k)
  end.
(** the same function, sealed so that proof search does not run the year search *)
Definition civil_sealed : {f | f = civil_search}.
Proof. exists civil_search. reflexivity. Qed.
Definition civil : calendar -> Z -> option (Z * Z * Z) := proj1_sig civil_sealed.
Lemma civil_eq : civil = civil_search.
Proof. exact (proj2_sig civil_sealed). Qed.
(** number of days before year [y] *)
Fixpoint days_before (k : nat) (c : calendar) : Z :=
  match k with O => 0 | S k => days_before k c + year_days c (Z.of_nat (S k)) end.
Definition epoch_sealed : {f | f = days_before (Z.to_nat 1969)}.
Proof. exists (days_before (Z.to_nat 1969)). reflexivity. Qed.
Definition epoch_day : calendar -> Z := proj1_sig epoch_sealed.
Lemma epoch_eq : epoch_day = days_before (Z.to_nat 1969).
Proof. exact (proj2_sig epoch_sealed). Qed.

Definition day_us : Z := 86400 * usec.
(** the day of a time, counted from 0001-01-01 *)
Definition day_of (c : calendar) (t : Z) : Z := epoch_day c + t / day_us.
Definition date_of (c : calendar) (t : Z) : option (Z * Z * Z) := civil c (day_of c t).
Definition second_of_day (t : Z) : Z := (t mod day_us) / usec.

(** decimal digits of [n], at least (here: exactly) [w] of them *)
Definition digit (n : Z) : ascii := ascii_of_nat (48 + Z.to_nat (n mod 10)).
Fixpoint digits (w : nat) (n : Z) : string :=
  match w with O => EmptyString | S w => digits w (n / 10) ++ String (digit n) EmptyString end.

(** strftime with %Y-%m-%d *)
Definition strf_day (c : calendar) (t : Z) : string :=
  match date_of c t with
  | Some (y, m, d) => digits 4 y ++ "-" ++ digits 2 m ++ "-" ++ digits 2 d
  | None => ""
  end.
(** strftime with %H-%M and %H:%M:%S *)
Definition strf_minute (t : Z) : string :=
  let s := second_of_day t in digits 2 (s / 3600) ++ "-" ++ digits 2 (s / 60 mod 60).
Definition strf_second (t : Z) : string :=
  let s := second_of_day t in digits 2 (s / 3600) ++ ":" ++ digits 2 (s / 60 mod 60) ++ ":" ++ digits 2 (s mod 60).

(** tracking/io.py l.24-25: input_path; the same name is built in preprocessing/shared.py
    l.221-222 *)
Definition input_path (c : calendar) (dir : string) (t : Z) : string :=
  dir ++ "/" ++ strf_day c t ++ "_fluxes_storages.nc".
(** tracking/io.py l.28-31: output_path *)
Definition output_path (c : calendar) (dir : string) (backward : bool) (t : Z) : string :=
  dir ++ "/" ++ (if backward then "backtrack" else "forwardtrack") ++ "_" ++
  (strf_day c t ++ "T" ++ strf_minute t) ++ ".nc".
(** tracking/io.py l.116: the label used to select a time *)
Definition time_label (c : calendar) (t : Z) : string := strf_day c t ++ "T" ++ strf_second t.

(** ** Specification *)
(** a four-digit year *)
Definition four_digit_year (c : calendar) (t : Z) : Prop :=
  exists y m d, date_of c t = Some (y, m, d) /\ 1000 <= y.

(** ** Facts about the calendar *)
Lemma month_days_pos c y n : In n (month_days c y) -> 21 <= n <= 31.
Proof.
  unfold month_days. destruct (leap c y), (Z.eqb y 1582), c; cbn; intuition lia.
Qed.
Lemma month_days_length c y : List.length (month_days c y) = 12%nat.
Proof. unfold month_days. destruct c; reflexivity. Qed.

Lemma find_year_spec fuel : forall c y d y' d', find_year fuel c y d = Some (y', d') ->
  y <= y' < y + Z.of_nat fuel /\ d' < year_days c y' /\ (0 <= d -> 0 <= d') /\
  d = d' + zsum (map (fun k => year_days c (y + Z.of_nat k)) (seq 0 (Z.to_nat (y' - y)))).
Proof.
  induction fuel; intros c y d y' d' H; [discriminate|]. cbn [find_year] in H.
  destruct (Z.ltb_spec d (year_days c y)).
  - injection H as <- <-. rewrite Z.sub_diag. cbn. lia.
  - destruct (IHfuel _ _ _ _ _ H) as (A & B & C & D). split; [lia|]. split; [exact B|]. split; [intros; apply C; lia|].
    replace (Z.to_nat (y' - y)) with (S (Z.to_nat (y' - (y + 1)))) by lia. cbn [seq map zsum fold_right].
    rewrite <- seq_shift, map_map. rewrite Z.add_0_r.
    replace (map (fun x => year_days c (y + Z.of_nat (S x))) (seq 0 (Z.to_nat (y' - (y + 1)))))
      with (map (fun k => year_days c (y + 1 + Z.of_nat k)) (seq 0 (Z.to_nat (y' - (y + 1))))).
    2: { apply map_ext. intros; f_equal; lia. }
    unfold zsum in *. lia.
Qed.
Lemma find_month_spec l : forall m d m' k, 0 <= d < zsum l -> find_month m l d = (m', k) ->
  m <= m' < m + Z.of_nat (List.length l) /\
  0 <= k < nth (Z.to_nat (m' - m)) l 0 /\ d = k + zsum (firstn (Z.to_nat (m' - m)) l).
Proof.
  induction l as [|n l IH]; intros m d m' k Hd H; [cbn in Hd; lia|].
  cbn [find_month] in H. destruct (Z.ltb_spec d n).
  - injection H as <- <-. rewrite Z.sub_diag. cbn. lia.
  - cbn [zsum fold_right] in Hd. destruct (IH (m + 1) (d - n) m' k ltac:(unfold zsum; lia) H) as (A & B & C).
    replace (Z.to_nat (m' - m)) with (S (Z.to_nat (m' - (m + 1)))) by lia.
    cbn [nth firstn zsum fold_right List.length]. unfold zsum in *. lia.
Qed.

(** the date of a day: what it means, independently of the search *)
Lemma civil_spec c n y m d : civil c n = Some (y, m, d) ->
  0 <= n /\ 1 <= y <= 9999 /\ 1 <= m <= 12 /\
  exists k, 0 <= k < nth (Z.to_nat (m - 1)) (month_days c y) 0 /\ d = day_label c y m k /\
    n = zsum (map (fun i => year_days c (1 + Z.of_nat i)) (seq 0 (Z.to_nat (y - 1))))
        + zsum (firstn (Z.to_nat (m - 1)) (month_days c y)) + k.
Proof.
  rewrite civil_eq. unfold civil_search. destruct (Z.ltb_spec n 0); [discriminate|].
  destruct (find_year (Z.to_nat 9999) c 1 n) as [[y' e]|] eqn:E; [|discriminate].
  destruct (find_year_spec _ _ _ _ _ _ E) as (A & B & C & D).
  destruct (find_month 1 (month_days c y') e) as [m' k] eqn:F. intros G. injection G as -> -> <-.
  destruct (find_month_spec (month_days c y) 1 e m k ltac:(unfold year_days in B; lia) F) as (A' & B' & D').
  rewrite month_days_length in A'. split; [lia|]. split; [lia|]. split; [lia|]. exists k. split; [lia|]. split; [reflexivity|lia].
Qed.
Lemma zsum_cons a l : zsum (a :: l) = a + zsum l.
Proof. reflexivity. Qed.
Lemma zsum_app l l' : zsum (l ++ l') = zsum l + zsum l'.
Proof. induction l; [reflexivity|]. cbn [app]. rewrite !zsum_cons. lia. Qed.
Lemma zsum_nonneg l : (forall n, In n l -> 0 <= n) -> 0 <= zsum l.
Proof.
  induction l; intros Q; [reflexivity|]. rewrite zsum_cons. pose proof (Q a (or_introl eq_refl)).
  pose proof (IHl (fun n h => Q n (or_intror h))). lia.
Qed.
Lemma year_days_pos c y : 1 <= year_days c y.
Proof. unfold year_days, month_days. destruct (leap c y), (Z.eqb y 1582), c; cbn; lia. Qed.
Lemma zsum_years_nonneg c y n : 0 <= zsum (map (fun k => year_days c (y + Z.of_nat k)) (seq 0 n)).
Proof.
  generalize 0%nat. induction n; intros s; cbn [seq map zsum fold_right]; [lia|].
  pose proof (year_days_pos c (y + Z.of_nat s)). specialize (IHn (S s)). unfold zsum in IHn. lia.
Qed.
Lemma find_year_complete c fuel : forall y y' d, y <= y' < y + Z.of_nat fuel -> 0 <= d < year_days c y' ->
  find_year fuel c y (d + zsum (map (fun k => year_days c (y + Z.of_nat k)) (seq 0 (Z.to_nat (y' - y))))) = Some (y', d).
Proof.
  induction fuel; intros y y' d Hy Hd; [lia|]. cbn [find_year].
  destruct (Z.eq_dec y y') as [->|Hn].
  - rewrite Z.sub_diag. cbn. rewrite Z.add_0_r. destruct (Z.ltb_spec d (year_days c y')); [reflexivity|lia].
  - replace (Z.to_nat (y' - y)) with (S (Z.to_nat (y' - (y + 1)))) by lia. cbn [seq map zsum fold_right].
    rewrite <- seq_shift, map_map, Z.add_0_r.
    replace (map (fun x => year_days c (y + Z.of_nat (S x))) (seq 0 (Z.to_nat (y' - (y + 1)))))
      with (map (fun k => year_days c (y + 1 + Z.of_nat k)) (seq 0 (Z.to_nat (y' - (y + 1))))).
    2: { apply map_ext. intros; f_equal; lia. }
    pose proof (zsum_years_nonneg c (y + 1) (Z.to_nat (y' - (y + 1)))) as P. unfold zsum in P.
    match goal with |- context [Z.ltb ?a ?b] => destruct (Z.ltb_spec a b); [lia|] end.
    specialize (IHfuel (y + 1) y' d ltac:(lia) Hd). unfold zsum in IHfuel.
    etransitivity; [|exact IHfuel]. f_equal. lia.
Qed.
Lemma find_month_complete l : forall m m' k, (forall n, In n l -> 0 <= n) -> m <= m' < m + Z.of_nat (List.length l) ->
  0 <= k < nth (Z.to_nat (m' - m)) l 0 -> find_month m l (k + zsum (firstn (Z.to_nat (m' - m)) l)) = (m', k).
Proof.
  induction l as [|n l IH]; intros m m' k Hp Hm Hk; [cbn in Hm; lia|].
  cbn [find_month]. destruct (Z.eq_dec m m') as [->|Hn].
  - rewrite Z.sub_diag in *. cbn in *. rewrite Z.add_0_r. destruct (Z.ltb_spec k n); [reflexivity|lia].
  - replace (Z.to_nat (m' - m)) with (S (Z.to_nat (m' - (m + 1)))) in * by lia. cbn [firstn zsum fold_right nth] in *.
    assert (P : 0 <= zsum (firstn (Z.to_nat (m' - (m + 1))) l)).
    { assert (Q : forall n, In n (firstn (Z.to_nat (m' - (m + 1))) l) -> 0 <= n).
      { intros x Hx. apply Hp. right. rewrite <- (firstn_skipn (Z.to_nat (m' - (m + 1))) l). apply in_or_app. auto. }
      exact (zsum_nonneg _ Q). }
    unfold zsum in P. match goal with |- context [Z.ltb ?a ?b] => destruct (Z.ltb_spec a b); [lia|] end.
    cbn [List.length] in Hm.
    specialize (IH (m + 1) m' k (fun x h => Hp x (or_intror h)) ltac:(lia) Hk). unfold zsum in IH.
    etransitivity; [|exact IH]. f_equal. lia.
Qed.
(** every valid date is the date of exactly one day *)
Lemma civil_complete c y m k : 1 <= y <= 9999 -> 1 <= m <= 12 -> 0 <= k < nth (Z.to_nat (m - 1)) (month_days c y) 0 ->
  civil c (zsum (map (fun i => year_days c (1 + Z.of_nat i)) (seq 0 (Z.to_nat (y - 1))))
           + zsum (firstn (Z.to_nat (m - 1)) (month_days c y)) + k) = Some (y, m, day_label c y m k).
Proof.
  intros Hy Hm Hk. rewrite civil_eq. unfold civil_search.
  pose proof (zsum_years_nonneg c 1 (Z.to_nat (y - 1))) as P.
  set (e := k + zsum (firstn (Z.to_nat (m - 1)) (month_days c y))).
  assert (Pe : 0 <= e < year_days c y).
  { unfold e, year_days. rewrite <- (firstn_skipn (Z.to_nat (m - 1)) (month_days c y)) at 3.
    rewrite zsum_app. assert (Q : forall l, (forall n, In n l -> 21 <= n <= 31) -> 0 <= zsum l).
    { intros l Q. apply zsum_nonneg. intros n Hn. apply Q in Hn. lia. }
    assert (Q1 : 0 <= zsum (firstn (Z.to_nat (m - 1)) (month_days c y))).
    { apply Q. intros n Hn. apply (month_days_pos c y). rewrite <- (firstn_skipn (Z.to_nat (m - 1))). apply in_or_app. auto. }
    destruct (skipn (Z.to_nat (m - 1)) (month_days c y)) as [|n r] eqn:Es.
    - exfalso. apply (f_equal (@List.length Z)) in Es. rewrite skipn_length, month_days_length in Es. change (List.length (@nil Z)) with 0%nat in Es. lia.
    - assert (Hn : nth (Z.to_nat (m - 1)) (month_days c y) 0 = n).
      { rewrite <- (firstn_skipn (Z.to_nat (m - 1)) (month_days c y)), Es, app_nth2.
        - rewrite firstn_length, month_days_length. replace (Z.to_nat (m - 1) - Nat.min (Z.to_nat (m - 1)) 12)%nat with 0%nat by lia. reflexivity.
        - rewrite firstn_length, month_days_length. lia. }
      assert (Q2 : 0 <= zsum r).
      { apply Q. intros x Hx. apply (month_days_pos c y). rewrite <- (firstn_skipn (Z.to_nat (m - 1))). apply in_or_app. right. rewrite Es. now right. }
      cbn [zsum fold_right]. unfold zsum in *. lia. }
  destruct (Z.ltb_spec (zsum (map (fun i => year_days c (1 + Z.of_nat i)) (seq 0 (Z.to_nat (y - 1)))) +
     zsum (firstn (Z.to_nat (m - 1)) (month_days c y)) + k) 0); [unfold e in Pe; lia|].
  replace (zsum (map (fun i => year_days c (1 + Z.of_nat i)) (seq 0 (Z.to_nat (y - 1)))) +
     zsum (firstn (Z.to_nat (m - 1)) (month_days c y)) + k)
    with (e + zsum (map (fun i => year_days c (1 + Z.of_nat i)) (seq 0 (Z.to_nat (y - 1))))) by (unfold e; lia).
  rewrite find_year_complete by lia. unfold e.
  rewrite find_month_complete; [reflexivity| | |exact Hk].
  - intros n Hn. apply month_days_pos in Hn. lia.
  - rewrite month_days_length. lia.
Qed.
Lemma day_label_inj c y m k k' : day_label c y m k = day_label c y m k' -> k = k'.
Proof.
  unfold day_label. destruct c; try lia.
  destruct (Z.eqb y 1582 && Z.eqb m 10)%bool; cbn [andb]; [|lia].
  destruct (Z.leb_spec 4 k), (Z.leb_spec 4 k'); lia.
Qed.
Lemma civil_inj c n n' x : civil c n = Some x -> civil c n' = Some x -> n = n'.
Proof.
  destruct x as [[y m] d]. intros H H'.
  apply civil_spec in H. apply civil_spec in H'. destruct H as (_ & _ & _ & k & _ & E & ->).
  destruct H' as (_ & _ & _ & k' & _ & E' & ->). rewrite E in E'. apply day_label_inj in E'. subst. reflexivity.
Qed.
Lemma civil_bounds c n y m d : civil c n = Some (y, m, d) -> 1 <= y <= 9999 /\ 1 <= m <= 12 /\ 1 <= d <= 31.
Proof.
  intros H. apply civil_spec in H. destruct H as (_ & ? & ? & k & Hk & -> & _). split; [lia|]. split; [lia|].
  assert (Hn : In (nth (Z.to_nat (m - 1)) (month_days c y) 0) (month_days c y)).
  { apply nth_In. rewrite month_days_length. lia. }
  pose proof (month_days_pos _ _ _ Hn). unfold day_label. destruct c; try lia.
  destruct (Z.eqb_spec y 1582), (Z.eqb_spec m 10); cbn [andb]; try lia. subst.
  replace (nth (Z.to_nat (10 - 1)) (month_days Standard 1582) 0) with 21 in Hk by reflexivity.
  destruct (Z.leb_spec 4 k); lia.
Qed.

(** ** Facts about strings *)
Lemma append_inj (a b a' b' : string) : String.length a = String.length a' -> (a ++ b = a' ++ b')%string -> a = a' /\ b = b'.
Proof.
  revert a'. induction a as [|x a IH]; intros [|x' a'] L E; cbn in *; try lia; [auto|].
  injection E as -> E. destruct (IH a' ltac:(lia) E) as [-> ->]. auto.
Qed.
Lemma append_length (a b : string) : String.length (a ++ b) = (String.length a + String.length b)%nat.
Proof. induction a; cbn; [reflexivity|]. now rewrite IHa. Qed.
Lemma append_inj_r (a b a' b' : string) : String.length b = String.length b' -> (a ++ b = a' ++ b')%string -> a = a' /\ b = b'.
Proof.
  intros L E. apply append_inj; [|exact E].
  pose proof (f_equal String.length E) as F. rewrite !append_length in F. lia.
Qed.
Lemma append_assoc (a b c : string) : ((a ++ b) ++ c = a ++ (b ++ c))%string.
Proof. induction a; cbn; [reflexivity|]. now rewrite IHa. Qed.

Lemma digits_length w : forall n, String.length (digits w n) = w.
Proof. induction w; intros n; [reflexivity|]. cbn. rewrite append_length, IHw. cbn. lia. Qed.
Lemma digit_inj a b : digit a = digit b -> a mod 10 = b mod 10.
Proof.
  unfold digit. intros H. apply (f_equal nat_of_ascii) in H.
  pose proof (Z.mod_pos_bound a 10 ltac:(lia)). pose proof (Z.mod_pos_bound b 10 ltac:(lia)).
  rewrite !nat_ascii_embedding in H by lia. lia.
Qed.
Lemma digits_inj w : forall a b, 0 <= a < 10 ^ Z.of_nat w -> 0 <= b < 10 ^ Z.of_nat w -> digits w a = digits w b -> a = b.
Proof.
  induction w; intros a b Ha Hb E; [cbn in Ha, Hb; lia|].
  cbn [digits] in E. apply append_inj_r in E; [|reflexivity]. destruct E as [E D].
  injection D as D. apply digit_inj in D.
  rewrite Nat2Z.inj_succ, Z.pow_succ_r in Ha, Hb by lia.
  apply IHw in E.
  - pose proof (Z.div_mod a 10 ltac:(lia)). pose proof (Z.div_mod b 10 ltac:(lia)). lia.
  - split; [apply Z.div_pos; lia|]. apply Z.div_lt_upper_bound; lia.
  - split; [apply Z.div_pos; lia|]. apply Z.div_lt_upper_bound; lia.
Qed.

Lemma strf_day_length c t : four_digit_year c t -> String.length (strf_day c t) = 10%nat.
Proof.
  intros (y & m & d & E & _). unfold strf_day. rewrite E. rewrite !append_length, !digits_length. reflexivity.
Qed.
Lemma date_of_civil c t x : date_of c t = Some x -> civil c (day_of c t) = Some x.
Proof. exact (fun H => H). Qed.
Lemma ymd_inj y m d y' m' d' : 1 <= y <= 9999 -> 1 <= m <= 12 -> 1 <= d <= 31 -> 1 <= y' <= 9999 -> 1 <= m' <= 12 -> 1 <= d' <= 31 ->
  (digits 4 y ++ "-" ++ digits 2 m ++ "-" ++ digits 2 d = digits 4 y' ++ "-" ++ digits 2 m' ++ "-" ++ digits 2 d')%string ->
  y = y' /\ m = m' /\ d = d'.
Proof.
  intros ? ? ? ? ? ? H.
  apply append_inj in H; [|rewrite !digits_length; reflexivity]. destruct H as [Q1 H].
  apply append_inj in H; [|reflexivity]. destruct H as [_ H].
  apply append_inj in H; [|rewrite !digits_length; reflexivity]. destruct H as [Q2 H].
  apply append_inj in H; [|reflexivity]. destruct H as [_ Q3].
  apply digits_inj in Q1; [|cbn; lia|cbn; lia]. apply digits_inj in Q2; [|cbn; lia|cbn; lia]. apply digits_inj in Q3; [|cbn; lia|cbn; lia].
  auto.
Qed.
Lemma day_of_inj c t t' : day_of c t = day_of c t' -> t / day_us = t' / day_us.
Proof. unfold day_of. generalize (epoch_day c). intros. lia. Qed.
Lemma strf_day_inj c t t' : four_digit_year c t -> four_digit_year c t' ->
  strf_day c t = strf_day c t' <-> t / day_us = t' / day_us.
Proof.
  intros (y & m & d & E & Hy) (y' & m' & d' & E' & Hy'). split.
  - unfold strf_day. rewrite E, E'. intros H. apply date_of_civil in E. apply date_of_civil in E'.
    destruct (civil_bounds _ _ _ _ _ E) as (? & ? & ?). destruct (civil_bounds _ _ _ _ _ E') as (? & ? & ?).
    apply ymd_inj in H; auto. destruct H as (-> & -> & ->).
    apply day_of_inj with c. exact (civil_inj _ _ _ _ E E').
  - intros H. unfold strf_day, date_of, day_of. rewrite H. reflexivity.
Qed.

Lemma second_of_day_bound t : 0 <= second_of_day t < 86400.
Proof.
  unfold second_of_day, day_us, usec. pose proof (Z.mod_pos_bound t (86400 * 1000000) ltac:(lia)).
  split; [apply Z.div_pos; lia|]. apply Z.div_lt_upper_bound; lia.
Qed.
Lemma second_of_day_spec t : t / usec = 86400 * (t / day_us) + second_of_day t.
Proof.
  unfold second_of_day, day_us. rewrite (Z.mul_comm 86400 usec). rewrite <- Z.div_div by (unfold usec; lia).
  rewrite Z.rem_mul_r by (unfold usec; lia).
  rewrite (Z.mul_comm usec (_ mod _)), Z.div_add by (unfold usec; lia).
  rewrite (Z.div_small (t mod usec)) by (apply Z.mod_pos_bound; unfold usec; lia).
  pose proof (Z.div_mod (t / usec) 86400 ltac:(lia)). lia.
Qed.

Lemma strf_minute_inj t t' : strf_minute t = strf_minute t' <-> second_of_day t / 60 = second_of_day t' / 60.
Proof.
  unfold strf_minute. pose proof (second_of_day_bound t). pose proof (second_of_day_bound t').
  set (s := second_of_day t) in *. set (s' := second_of_day t') in *. clearbody s s'.
  assert (E : forall s, 0 <= s < 86400 -> s / 3600 = s / 60 / 60) by (intros; rewrite Z.div_div by lia; reflexivity).
  assert (B : forall s, 0 <= s < 86400 -> 0 <= s / 3600 < 24).
  { intros; split; [apply Z.div_pos; lia|apply Z.div_lt_upper_bound; lia]. }
  pose proof (E s ltac:(lia)) as E1. pose proof (E s' ltac:(lia)) as E2. pose proof (B s ltac:(lia)). pose proof (B s' ltac:(lia)).
  pose proof (Z.mod_pos_bound (s / 60) 60 ltac:(lia)). pose proof (Z.mod_pos_bound (s' / 60) 60 ltac:(lia)).
  split; intros Q.
  - apply append_inj in Q; [|rewrite !digits_length; reflexivity]. destruct Q as [Q1 Q].
    apply append_inj in Q; [|reflexivity]. destruct Q as [_ Q2].
    apply digits_inj in Q1; [|cbn; lia|cbn; lia]. apply digits_inj in Q2; [|cbn; lia|cbn; lia].
    pose proof (Z.div_mod (s / 60) 60 ltac:(lia)). pose proof (Z.div_mod (s' / 60) 60 ltac:(lia)). lia.
  - rewrite E1, E2, Q. reflexivity.
Qed.
Lemma strf_second_inj t t' : strf_second t = strf_second t' <-> second_of_day t = second_of_day t'.
Proof.
  unfold strf_second. pose proof (second_of_day_bound t). pose proof (second_of_day_bound t').
  set (s := second_of_day t) in *. set (s' := second_of_day t') in *. clearbody s s'.
  assert (E : forall s, 0 <= s < 86400 -> s / 3600 = s / 60 / 60) by (intros; rewrite Z.div_div by lia; reflexivity).
  assert (B : forall s, 0 <= s < 86400 -> 0 <= s / 3600 < 24).
  { intros; split; [apply Z.div_pos; lia|apply Z.div_lt_upper_bound; lia]. }
  pose proof (E s ltac:(lia)) as E1. pose proof (E s' ltac:(lia)) as E2. pose proof (B s ltac:(lia)). pose proof (B s' ltac:(lia)).
  pose proof (Z.mod_pos_bound (s / 60) 60 ltac:(lia)). pose proof (Z.mod_pos_bound (s' / 60) 60 ltac:(lia)).
  pose proof (Z.mod_pos_bound s 60 ltac:(lia)). pose proof (Z.mod_pos_bound s' 60 ltac:(lia)).
  split; intros Q.
  - apply append_inj in Q; [|rewrite !digits_length; reflexivity]. destruct Q as [Q1 Q].
    apply append_inj in Q; [|reflexivity]. destruct Q as [_ Q].
    apply append_inj in Q; [|rewrite !digits_length; reflexivity]. destruct Q as [Q2 Q].
    apply append_inj in Q; [|reflexivity]. destruct Q as [_ Q3].
    apply digits_inj in Q1; [|cbn; lia|cbn; lia]. apply digits_inj in Q2; [|cbn; lia|cbn; lia]. apply digits_inj in Q3; [|cbn; lia|cbn; lia].
    pose proof (Z.div_mod (s / 60) 60 ltac:(lia)). pose proof (Z.div_mod (s' / 60) 60 ltac:(lia)).
    pose proof (Z.div_mod s 60 ltac:(lia)). pose proof (Z.div_mod s' 60 ltac:(lia)). lia.
  - rewrite Q. reflexivity.
Qed.
Lemma minute_split t : t / (60 * usec) = 1440 * (t / day_us) + second_of_day t / 60.
Proof.
  rewrite (Z.mul_comm 60), <- Z.div_div by (unfold usec; lia). rewrite second_of_day_spec.
  replace (86400 * (t / day_us)) with (1440 * (t / day_us) * 60) by lia. rewrite Z.add_comm, Z.div_add by lia. lia.
Qed.
Lemma same_minute t t' : t / (60 * usec) = t' / (60 * usec) <->
  t / day_us = t' / day_us /\ second_of_day t / 60 = second_of_day t' / 60.
Proof.
  rewrite !minute_split. pose proof (second_of_day_bound t). pose proof (second_of_day_bound t').
  assert (0 <= second_of_day t / 60 < 1440) by (split; [apply Z.div_pos; lia|apply Z.div_lt_upper_bound; lia]).
  assert (0 <= second_of_day t' / 60 < 1440) by (split; [apply Z.div_pos; lia|apply Z.div_lt_upper_bound; lia]).
  lia.
Qed.
Lemma same_second t t' : t / usec = t' / usec <->
  t / day_us = t' / day_us /\ second_of_day t = second_of_day t'.
Proof. rewrite !second_of_day_spec. pose proof (second_of_day_bound t). pose proof (second_of_day_bound t'). lia. Qed.

Lemma cons_inj x (a b : string) : (String x EmptyString ++ a = String x EmptyString ++ b)%string -> a = b.
Proof. cbn. intros E. now injection E. Qed.
Lemma dir_names_inj (b b' : bool) X Y :
  ((if b then "backtrack" else "forwardtrack") ++ "_" ++ X = (if b' then "backtrack" else "forwardtrack") ++ "_" ++ Y)%string ->
  b = b' /\ X = Y.
Proof. destruct b, b'; cbn; intros E; try discriminate E; injection E as E; auto. Qed.

(** ** C64: file names and labels identify times *)
(** One input file per calendar day: two times share their input file exactly if they lie in
    the same day. *)
Theorem C64_input_file_is_the_day c dir t t' : four_digit_year c t -> four_digit_year c t' ->
  input_path c dir t = input_path c dir t' <-> t / (24 * 60 * 60 * 1000000) = t' / (24 * 60 * 60 * 1000000).
Proof.
  intros H H'. change (24 * 60 * 60 * 1000000) with day_us. rewrite <- (strf_day_inj c) by auto. unfold input_path. split.
  - intros E. apply append_inj in E; [|reflexivity]. destruct E as [_ E]. apply cons_inj in E.
    apply append_inj in E; [exact (proj1 E)|]. rewrite !strf_day_length by auto. reflexivity.
  - intros ->. reflexivity.
Qed.
(** Two times share their label exactly if they lie in the same second. *)
Theorem C64_label_is_the_second c t t' : four_digit_year c t -> four_digit_year c t' ->
  time_label c t = time_label c t' <-> t / 1000000 = t' / 1000000.
Proof.
  intros H H'. change 1000000 with usec. rewrite same_second, <- strf_second_inj, <- (strf_day_inj c) by auto.
  unfold time_label. split.
  - intros E. apply append_inj in E; [|rewrite !strf_day_length by auto; reflexivity]. destruct E as [-> E].
    split; [reflexivity|]. exact (cons_inj _ _ _ E).
  - intros [-> ->]. reflexivity.
Qed.
(** Two output files share their name exactly if they have the same direction and their times
    lie in the same minute. *)
Theorem C64_output_file_is_the_minute c dir b b' t t' : four_digit_year c t -> four_digit_year c t' ->
  output_path c dir b t = output_path c dir b' t' <-> b = b' /\ t / (60 * 1000000) = t' / (60 * 1000000).
Proof.
  intros H H'. change (60 * 1000000) with (60 * usec). rewrite same_minute, <- strf_minute_inj, <- (strf_day_inj c) by auto.
  unfold output_path. split.
  - intros E. apply append_inj in E; [|reflexivity]. destruct E as [_ E]. apply cons_inj in E.
    apply dir_names_inj in E. destruct E as [Eb E]. split; [exact Eb|].
    apply append_inj_r in E; [|reflexivity]. destruct E as [E _].
    apply append_inj in E; [|rewrite !strf_day_length by auto; reflexivity]. destruct E as [E1 E2].
    apply cons_inj in E2. auto.
  - intros (-> & -> & ->). reflexivity.
Qed.


(** Consecutive days have consecutive dates, in every calendar: next day of the month, or
    first of the next month, or first of the next year.  In the mixed calendar 15 October
    1582 follows the 4th. *)
(** the leap years of a calendar, written out *)
Definition multiple (k y : Z) : bool := match y mod k with 0 => true | _ => false end.
Definition has_29_february (c : calendar) (y : Z) : bool :=
  match c with
  | NoLeap | Day360 => false
  | AllLeap => true
  | Julian => multiple 4 y
  | ProlepticGregorian => if multiple 400 y then true else if multiple 100 y then false else multiple 4 y
  | Standard =>      (* Julian until October 1582, then Gregorian *)
      if multiple 400 y then true else if (multiple 100 y && Z.ltb 1582 y)%bool then false else multiple 4 y
  end.
Definition last_day (c : calendar) (y m : Z) : Z :=
  match c with
  | Day360 => 30
  | _ => match m with 4 | 6 | 9 | 11 => 30 | 2 => if has_29_february c y then 29 else 28 | _ => 31 end
  end.
Lemma leap_spec c y : leap c y = has_29_february c y.
Proof.
  unfold leap, has_29_february, multiple.
  assert (E : forall k, Z.eqb (y mod k) 0 = match y mod k with 0 => true | _ => false end) by (intros k; destruct (y mod k); reflexivity).
  rewrite <- !E.
  assert (M : forall k, (4 | k) -> y mod k = 0 -> 0 < k -> y mod 4 = 0).
  { intros k [j ->] H Hk. apply Z.mod_divide in H; [|lia]. apply Z.mod_divide; [lia|]. destruct H as [i ->]. exists (i * j). lia. }
  pose proof (M 400 ltac:(exists 100; reflexivity)) as M4.
  assert (M1 : y mod 400 = 0 -> y mod 100 = 0).
  { intros H. apply Z.mod_divide in H; [|lia]. apply Z.mod_divide; [lia|]. destruct H as [i ->]. exists (i * 4). lia. }
  destruct c; try reflexivity; destruct (Z.leb_spec y 1582); destruct (Z.ltb_spec 1582 y); try lia;
  destruct (Z.eqb_spec (y mod 4) 0), (Z.eqb_spec (y mod 100) 0), (Z.eqb_spec (y mod 400) 0); try reflexivity; intuition lia.
Qed.
Definition next_date (c : calendar) (x x' : Z * Z * Z) : Prop :=
  let '(y, m, d) := x in
  if (match c with Standard => true | _ => false end && Z.eqb y 1582 && Z.eqb m 10 && Z.eqb d 4)%bool then x' = (1582, 10, 15)
  else if Z.ltb d (last_day c y m) then x' = (y, m, d + 1)
  else if Z.ltb m 12 then x' = (y, m + 1, 1)
  else x' = (y + 1, 1, 1).
Lemma label_last c y m k : 1 <= m <= 12 -> 0 <= k < nth (Z.to_nat (m - 1)) (month_days c y) 0 ->
  (k + 1 < nth (Z.to_nat (m - 1)) (month_days c y) 0 -> day_label c y m k < last_day c y m /\
     day_label c y m (k + 1) = if (match c with Standard => true | _ => false end && Z.eqb y 1582 && Z.eqb m 10 && Z.eqb (day_label c y m k) 4)%bool
       then 15 else day_label c y m k + 1) /\
  (k + 1 = nth (Z.to_nat (m - 1)) (month_days c y) 0 -> day_label c y m k = last_day c y m).
Proof.
  intros Hm. unfold month_days, day_label, last_day. rewrite <- leap_spec.
  assert (A : m = 1 \/ m = 2 \/ m = 3 \/ m = 4 \/ m = 5 \/ m = 6 \/ m = 7 \/ m = 8 \/ m = 9 \/ m = 10 \/ m = 11 \/ m = 12) by lia.
  repeat (destruct A as [->|A]); [..|subst m];
    match goal with |- context [Z.to_nat (?a - 1)] => let v := eval vm_compute in (Z.to_nat (a - 1)) in change (Z.to_nat (a - 1)) with v end;
    destruct (leap c y), (Z.eqb_spec y 1582), c; cbn -[Z.add Z.leb Z.lt Z.le]; intros;
    repeat match goal with |- context [Z.leb ?a ?b] => destruct (Z.leb_spec a b) end;
    repeat match goal with |- context [Z.eqb ?a ?b] => destruct (Z.eqb_spec a b) end; cbn -[Z.add]; lia.
Qed.
Theorem C64_calendar_days_follow_each_other c n y m d : civil c n = Some (y, m, d) -> y < 9999 ->
  exists x, civil c (n + 1) = Some x /\ next_date c (y, m, d) x.
Proof.
  intros H Hy. apply civil_spec in H. destruct H as (Hn & Hy' & Hm & k & Hk & -> & ->).
  destruct (label_last c y m k Hm Hk) as [L1 L2].
  set (A := zsum (map (fun i => year_days c (1 + Z.of_nat i)) (seq 0 (Z.to_nat (y - 1))))) in *.
  unfold next_date. destruct (Z.eq_dec (k + 1) (nth (Z.to_nat (m - 1)) (month_days c y) 0)) as [E|E].
  - specialize (L2 E). rewrite L2. clear L1.
    assert (X : (match c with Standard => true | _ => false end && (y =? 1582) && (m =? 10) && (last_day c y m =? 4))%bool = false).
    { destruct c, (Z.eqb_spec y 1582), (Z.eqb_spec m 10); try reflexivity. subst. reflexivity. }
    rewrite X, Z.ltb_irrefl. destruct (Z.ltb_spec m 12).
    + eexists. split; [|reflexivity].
      assert (P : 0 < nth (Z.to_nat (m + 1 - 1)) (month_days c y) 0).
      { assert (In (nth (Z.to_nat (m + 1 - 1)) (month_days c y) 0) (month_days c y)) as Q.
        { apply nth_In. rewrite month_days_length. lia. } apply month_days_pos in Q. lia. }
      pose proof (civil_complete c y (m + 1) 0 ltac:(lia) ltac:(lia) ltac:(lia)) as Q. fold A in Q.
      replace (day_label c y (m + 1) 0) with 1 in Q. 2: { unfold day_label. destruct c, (Z.eqb y 1582), (Z.eqb (m + 1) 10); reflexivity. }
      rewrite <- Q. f_equal. replace (Z.to_nat (m + 1 - 1)) with (S (Z.to_nat (m - 1))) by lia.
      assert (F : forall l i, (i < List.length l)%nat -> zsum (firstn (S i) l) = zsum (firstn i l) + nth i l 0).
      { clear. induction l; intros i Hi; [cbn in Hi; lia|]. destruct i; [rewrite firstn_cons; rewrite zsum_cons; cbn; lia|].
        rewrite !firstn_cons, !zsum_cons, IHl by (cbn in Hi; lia). cbn [nth]. lia. }
      rewrite F by (rewrite month_days_length; lia). lia.
    + assert (m = 12) by lia. subst m. eexists. split; [|reflexivity].
      assert (P : 0 < nth (Z.to_nat (1 - 1)) (month_days c (y + 1)) 0).
      { assert (In (nth (Z.to_nat (1 - 1)) (month_days c (y + 1)) 0) (month_days c (y + 1))) as Q.
        { apply nth_In. rewrite month_days_length. change (Z.to_nat (1 - 1)) with 0%nat. lia. } apply month_days_pos in Q. lia. }
      pose proof (civil_complete c (y + 1) 1 0 ltac:(lia) ltac:(lia) ltac:(lia)) as Q.
      replace (day_label c (y + 1) 1 0) with 1 in Q. 2: { unfold day_label. destruct c, (Z.eqb (y + 1) 1582); reflexivity. }
      rewrite <- Q. f_equal. replace (Z.to_nat (y + 1 - 1)) with (S (Z.to_nat (y - 1))) by lia.
      rewrite seq_S, map_app, zsum_app. fold A. cbn [map]. rewrite zsum_cons.
      replace (1 + Z.of_nat (0 + Z.to_nat (y - 1))) with y by lia.
      change (Z.to_nat (1 - 1)) with 0%nat. cbn [firstn]. change (zsum []) with 0.
      assert (Y : year_days c y = zsum (firstn (Z.to_nat (12 - 1)) (month_days c y)) + nth (Z.to_nat (12 - 1)) (month_days c y) 0).
      { unfold year_days, month_days. destruct (leap c y), (Z.eqb y 1582), c; reflexivity. }
      lia.
  - destruct (L1 ltac:(lia)) as [L3 L4]. eexists. split.
    + pose proof (civil_complete c y m (k + 1) ltac:(lia) Hm ltac:(lia)) as Q. fold A in Q. rewrite <- Q. f_equal. lia.
    + rewrite L4. destruct (_ && _)%bool eqn:B.
      * destruct c; try discriminate B. destruct (Z.eqb_spec y 1582), (Z.eqb_spec m 10); try discriminate B. subst. reflexivity.
      * destruct (Z.ltb_spec (day_label c y m k) (last_day c y m)); [reflexivity|lia].
Qed.

(** the epoch, and a few known dates *)
Example C64_witness :
  map (fun c => date_of c 0) [Standard; ProlepticGregorian; Julian; NoLeap; AllLeap; Day360] = repeat (Some (1970, 1, 1)) 6 /\
  date_of Standard (-12219292800 * usec) = Some (1582, 10, 15) /\
  date_of Standard (-12219292800 * usec - 1) = Some (1582, 10, 4) /\
  date_of Standard (951782400 * usec) = Some (2000, 2, 29) /\ date_of NoLeap (951782400 * usec) <> Some (2000, 2, 29) /\
  input_path Standard "d" (951782400 * usec) = "d/2000-02-29_fluxes_storages.nc"%string /\
  output_path Standard "d" true (951782400 * usec + 45296 * usec) = "d/backtrack_2000-02-29T12-34.nc"%string /\
  time_label Standard (951782400 * usec + 45296 * usec) = "2000-02-29T12:34:56"%string.
Proof.
  unfold input_path, output_path, time_label, strf_day, date_of, day_of. rewrite !civil_eq, !epoch_eq.
  do 4 (split; [vm_compute; reflexivity|]). split; [intros H; vm_compute in H; discriminate H|].
  do 2 (split; [vm_compute; reflexivity|]). vm_compute; reflexivity.
Qed.
