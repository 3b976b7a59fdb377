(** * C43, C42: dates as text
    utils/calendar.py l.125-131 (cftime_from_iso), config.py l.594-609 (to_string). *)
From Coq Require Import Arith Lia Bool List ZArith String Ascii.
From Verif Require Import Num Arr Run Calendar.
Import ListNotations.
Local Open Scope Z_scope.
Local Open Scope string_scope.

(** ** Model *)
(** a decimal digit (ASCII) *)
Definition digit_val (a : ascii) : option Z :=
  let n := Z.of_nat (nat_of_ascii a) in if (Z.leb 48 n && Z.leb n 57)%bool then Some (n - 48) else None.
(** The directives of strptime (cftime's copy of Python's _strptime).  %m, %d, %H, %M, %S take one or two
    digits; each is followed by a literal or the end of the text, so that the match is unique.
    Simplifications: %d also takes a blank and a digit; literals are compared without regard to case. *)
Definition in_range (lo hi v : Z) (rest : string) : res (Z * string) :=
  if (Z.leb lo v && Z.leb v hi)%bool then OK (v, rest) else Err ValueError.
Definition field (lo hi : Z) (s : string) : res (Z * string) :=
  match s with
  | String a s1 =>
      match digit_val a with
      | None => Err ValueError
      | Some x => match s1 with
                  | String b s2 => match digit_val b with Some y => in_range lo hi (10 * x + y) s2 | None => in_range lo hi x s1 end
                  | EmptyString => in_range lo hi x s1
                  end
      end
  | EmptyString => Err ValueError
  end.
(** %Y: four digits *)
Definition year (s : string) : res (Z * string) :=
  match s with
  | String a (String b (String c (String d s))) =>
      match digit_val a, digit_val b, digit_val c, digit_val d with
      | Some a, Some b, Some c, Some d => OK (((a * 10 + b) * 10 + c) * 10 + d, s)
      | _, _, _, _ => Err ValueError
      end
  | _ => Err ValueError
  end.
Definition literal (x : ascii) (s : string) : res string :=
  match s with String a s => if Ascii.eqb a x then OK s else Err ValueError | EmptyString => Err ValueError end.
Definition the_end (s : string) : res unit := match s with EmptyString => OK tt | _ => Err ValueError end.
(** str.count(":") *)
Fixpoint count (x : ascii) (s : string) : nat :=
  match s with EmptyString => 0 | String a s => ((if Ascii.eqb a x then 1 else 0) + count x s)%nat end.

(** the position of a day in its month; cftime rejects days that the calendar does not have *)
Definition day_index (c : calendar) (y m d : Z) : option Z :=
  let k := match c with
           | Standard => if (Z.eqb y 1582 && Z.eqb m 10)%bool then (if Z.leb d 4 then d - 1 else if Z.leb 15 d then d - 11 else -1) else d - 1
           | _ => d - 1
           end in
  if (Z.leb 0 k && Z.ltb k (nth (Z.to_nat (m - 1)) (month_days c y) 0))%bool then Some k else None.
Definition days_before_year (c : calendar) (y : Z) : Z := zsum (map (fun i => year_days c (1 + Z.of_nat i)) (seq 0 (Z.to_nat (y - 1)))).
(** cftime.datetime(y, m, d, hh, mm, ss, calendar=c) as a number of microseconds.  Year 0 is left out, as
    everywhere.  The detour over a floating-point day number in subclass_cftime (calendar.py l.35-50) is
    not modelled: it is the identity here. *)
Definition make_time (c : calendar) (y m d hh mm ss : Z) : res Z :=
  if Z.ltb y 1 then Err ValueError else
  match day_index c y m d with
  | None => Err ValueError
  | Some k => OK ((days_before_year c y + zsum (firstn (Z.to_nat (m - 1)) (month_days c y)) + k - epoch_day c) * day_us
                  + (hh * 3600 + mm * 60 + ss) * usec)
  end.
(** calendar.py l.125-131 *)
Definition cftime_from_iso (c : calendar) (timestamp : string) : res Z :=
  do ys <- year timestamp;
  do s <- literal "-" (snd ys);
  do ms <- field 1 12 s;
  do s <- literal "-" (snd ms);
  do ds <- field 1 31 s;
  do s <- literal "T" (snd ds);
  do hs <- field 0 23 s;
  do s <- literal ":" (snd hs);
  do mi <- field 0 59 s;
  if Nat.eqb (count ":" timestamp) 1 then
    do _ <- the_end (snd mi);
    make_time c (fst ys) (fst ms) (fst ds) (fst hs) (fst mi) 0
  else
    do s <- literal ":" (snd mi);
    do se <- field 0 59 s;
    do _ <- the_end (snd se);
    make_time c (fst ys) (fst ms) (fst ds) (fst hs) (fst mi) (fst se).

(** config.py l.607-608: strftime("%Y-%m-%dT%H:%M") *)
Definition export_date (c : calendar) (t : Z) : string :=
  let s := second_of_day t in strf_day c t ++ "T" ++ digits 2 (s / 3600) ++ ":" ++ digits 2 (s / 60 mod 60).
(** the same with seconds: isoformat *)
Definition iso_date (c : calendar) (t : Z) : string :=
  let s := second_of_day t in strf_day c t ++ "T" ++ digits 2 (s / 3600) ++ ":" ++ digits 2 (s / 60 mod 60) ++ ":" ++ digits 2 (s mod 60).

(** ** Specification *)
(** YYYY-MM-DDTHH:MM and YYYY-MM-DDTHH:MM:SS *)
Definition text_minute (y m d hh mm : Z) : string := digits 4 y ++ "-" ++ digits 2 m ++ "-" ++ digits 2 d ++ "T" ++ digits 2 hh ++ ":" ++ digits 2 mm.
Definition text_second (y m d hh mm ss : Z) : string := text_minute y m d hh mm ++ ":" ++ digits 2 ss.
(** the calendar has this day *)
Definition exists_day (c : calendar) (y m d : Z) : Prop := exists n, civil c n = Some (y, m, d).

(** ** Lemmas *)
Lemma digit_val_digit n : digit_val (digit n) = Some (n mod 10).
Proof.
  unfold digit_val, digit. pose proof (Z.mod_pos_bound n 10 ltac:(lia)). rewrite nat_ascii_embedding by lia.
  replace (Z.of_nat (48 + Z.to_nat (n mod 10))) with (48 + n mod 10) by lia.
  destruct (Z.leb_spec 48 (48 + n mod 10)), (Z.leb_spec (48 + n mod 10) 57); try lia. cbn [andb]. f_equal. lia.
Qed.
Lemma digits2 n : digits 2 n = String (digit (n / 10)) (String (digit n) "").
Proof. reflexivity. Qed.
Lemma digits4 n : digits 4 n = String (digit (n / 10 / 10 / 10)) (String (digit (n / 10 / 10)) (String (digit (n / 10)) (String (digit n) ""))).
Proof. reflexivity. Qed.
Lemma field_digits lo hi n rest : 0 <= n < 100 -> lo <= n <= hi -> field lo hi (digits 2 n ++ rest) = OK (n, rest).
Proof.
  intros Hn Hr. rewrite digits2. cbn [String.append field]. rewrite !digit_val_digit.
  assert (E : 10 * (n / 10 mod 10) + n mod 10 = n).
  { assert (0 <= n / 10 < 10) by (split; [apply Z.div_pos; lia|apply Z.div_lt_upper_bound; lia]). rewrite (Z.mod_small (n / 10)) by lia. symmetry. apply Z_div_mod_eq_full. }
  rewrite E. unfold in_range. destruct (Z.leb_spec lo n), (Z.leb_spec n hi); try lia. reflexivity.
Qed.
Lemma field_digits_err lo hi n rest : 0 <= n < 100 -> ~ lo <= n <= hi -> field lo hi (digits 2 n ++ rest) = Err ValueError.
Proof.
  intros Hn Hr. rewrite digits2. cbn [String.append field]. rewrite !digit_val_digit.
  assert (E : 10 * (n / 10 mod 10) + n mod 10 = n).
  { assert (0 <= n / 10 < 10) by (split; [apply Z.div_pos; lia|apply Z.div_lt_upper_bound; lia]). rewrite (Z.mod_small (n / 10)) by lia. symmetry. apply Z_div_mod_eq_full. }
  rewrite E. unfold in_range. destruct (Z.leb_spec lo n), (Z.leb_spec n hi); try lia; reflexivity.
Qed.
Lemma year_digits n rest : 0 <= n < 10000 -> year (digits 4 n ++ rest) = OK (n, rest).
Proof.
  intros Hn. rewrite digits4. cbn [String.append year]. rewrite !digit_val_digit. do 2 f_equal.
  rewrite !Z.div_div by lia. change (10 * 10) with 100. change (10 * (10 * 10)) with 1000. change (100 * 10) with 1000.
  assert (0 <= n / 1000 < 10) by (split; [apply Z.div_pos; lia|apply Z.div_lt_upper_bound; lia]).
  rewrite (Z.mod_small (n / 1000)) by lia.
  pose proof (Z_div_mod_eq_full n 10). pose proof (Z_div_mod_eq_full (n / 10) 10). pose proof (Z_div_mod_eq_full (n / 100) 10).
  replace (n / 10 / 10) with (n / 100) in * by (rewrite Z.div_div by lia; reflexivity).
  replace (n / 100 / 10) with (n / 1000) in * by (rewrite Z.div_div by lia; reflexivity). lia.
Qed.
Lemma literal_app x rest : literal x (String x "" ++ rest) = OK rest.
Proof. cbn. now rewrite Ascii.eqb_refl. Qed.
Lemma count_app x a b : count x (a ++ b) = (count x a + count x b)%nat.
Proof. induction a as [|z a IH]; cbn; [reflexivity|]. rewrite IH. lia. Qed.
Lemma digit_not_colon n : Ascii.eqb (digit n) ":" = false.
Proof.
  unfold digit. apply Ascii.eqb_neq. intros C. apply (f_equal nat_of_ascii) in C. pose proof (Z.mod_pos_bound n 10 ltac:(lia)).
  rewrite nat_ascii_embedding in C by lia. change (nat_of_ascii ":") with 58%nat in C. lia.
Qed.
Lemma count_digits w : forall n, count ":" (digits w n) = 0%nat.
Proof. induction w; intros n; [reflexivity|]. cbn [digits]. rewrite count_app, IHw. cbn [count]. now rewrite digit_not_colon. Qed.
Lemma day_index_label c y m d k : day_index c y m d = Some k -> 0 <= k < nth (Z.to_nat (m - 1)) (month_days c y) 0 /\ day_label c y m k = d.
Proof.
  unfold day_index, day_label. intros H.
  match type of H with (if ?b then _ else _) = _ => destruct b eqn:E; [|discriminate] end. injection H as <-.
  apply andb_true_iff in E as [E1 E2]. apply Z.leb_le in E1. apply Z.ltb_lt in E2. split; [lia|].
  destruct c; try lia. destruct (Z.eqb y 1582 && Z.eqb m 10)%bool; cbn [andb]; [|lia].
  destruct (Z.leb_spec d 4); [destruct (Z.leb_spec 4 (d - 1)); lia|]. destruct (Z.leb_spec 15 d); [destruct (Z.leb_spec 4 (d - 11)); lia|lia].
Qed.
Lemma day_index_of_label c y m k : 0 <= k < nth (Z.to_nat (m - 1)) (month_days c y) 0 -> day_index c y m (day_label c y m k) = Some k.
Proof.
  intros Hk. unfold day_index, day_label.
  assert (G : forall b z : Z, b = k -> (if (Z.leb 0 b && Z.ltb b (nth (Z.to_nat (m - 1)) (month_days c y) 0))%bool then Some b else None) = Some k).
  { intros b _ ->. destruct (Z.leb_spec 0 k), (Z.ltb_spec k (nth (Z.to_nat (m - 1)) (month_days c y) 0)); try lia. reflexivity. }
  destruct c; try (apply G; [exact 0|lia]). destruct (Z.eqb y 1582 && Z.eqb m 10)%bool; cbn [andb]; [|apply G; [exact 0|lia]].
  apply G; [exact 0|]. destruct (Z.leb_spec 4 k).
  - destruct (Z.leb_spec (k + 11) 4); [lia|]. destruct (Z.leb_spec 15 (k + 11)); lia.
  - destruct (Z.leb_spec (k + 1) 4); lia.
Qed.
Lemma make_time_ok c y m d hh mm ss : 1 <= y <= 9999 -> 1 <= m <= 12 -> 0 <= hh < 24 -> 0 <= mm < 60 -> 0 <= ss < 60 ->
  (forall t, make_time c y m d hh mm ss = OK t -> date_of c t = Some (y, m, d) /\ second_of_day t = hh * 3600 + mm * 60 + ss /\ t mod usec = 0) /\
  (exists_day c y m d -> exists t, make_time c y m d hh mm ss = OK t) /\
  (~ exists_day c y m d -> make_time c y m d hh mm ss = Err ValueError).
Proof.
  intros Hy Hm Hh Hmi Hs. unfold make_time. destruct (Z.ltb_spec y 1); [lia|].
  destruct (day_index c y m d) as [k|] eqn:E.
  - destruct (day_index_label c y m d k E) as [Hk Hd]. pose proof (civil_complete c y m k Hy Hm Hk) as C. rewrite Hd in C.
    split; [|split; [eauto|]].
    + intros t [= <-]. set (D := days_before_year c y + zsum (firstn (Z.to_nat (m - 1)) (month_days c y)) + k) in *.
      set (sec := hh * 3600 + mm * 60 + ss). assert (Hsec : 0 <= sec * usec < day_us) by (unfold sec, day_us, usec; lia).
      assert (Ediv : ((D - epoch_day c) * day_us + sec * usec) / day_us = D - epoch_day c) by (symmetry; apply (Z.div_unique_pos _ _ _ (sec * usec)); lia).
      assert (Emod : ((D - epoch_day c) * day_us + sec * usec) mod day_us = sec * usec) by (symmetry; apply (Z.mod_unique_pos _ _ (D - epoch_day c)); lia).
      split; [|split].
      * unfold date_of, day_of. rewrite Ediv. replace (epoch_day c + (D - epoch_day c)) with D by lia. exact C.
      * unfold second_of_day. rewrite Emod. apply Z.div_mul. unfold usec; lia.
      * unfold day_us. replace ((D - epoch_day c) * (86400 * usec) + sec * usec) with (((D - epoch_day c) * 86400 + sec) * usec) by ring. apply Z.mod_mul. unfold usec; lia.
    + intros N. exfalso. apply N. eexists. exact C.
  - split; [discriminate|]. split; [|reflexivity]. intros [n C]. exfalso. apply civil_spec in C as (_ & _ & _ & k & Hk & -> & _). rewrite day_index_of_label in E by exact Hk. discriminate.
Qed.
Lemma time_unique c t t' : date_of c t = date_of c t' -> date_of c t <> None -> second_of_day t = second_of_day t' -> t mod usec = t' mod usec -> t = t'.
Proof.
  intros Ed Nn Es Eu. destruct (date_of c t) as [x|] eqn:E; [|congruence]. unfold date_of in *. symmetry in Ed. pose proof (civil_inj _ _ _ _ E Ed) as H. apply day_of_inj in H.
  pose proof (second_of_day_spec t). pose proof (second_of_day_spec t'). pose proof (Z_div_mod_eq_full t usec). pose proof (Z_div_mod_eq_full t' usec). lia.
Qed.

(** ** C42: reading dates *)
(** A date written YYYY-MM-DDTHH:MM[:SS] is accepted iff all its numbers are in range and the calendar of
    the configuration has that day; the result is the time with these very numbers. *)
Lemma parse_minute c y m d hh mm : 1000 <= y <= 9999 -> 0 <= m < 100 -> 0 <= d < 100 -> 0 <= hh < 100 -> 0 <= mm < 100 ->
  cftime_from_iso c (text_minute y m d hh mm) =
  if (Z.leb 1 m && Z.leb m 12 && Z.leb 1 d && Z.leb d 31 && Z.leb hh 23 && Z.leb mm 59)%bool then make_time c y m d hh mm 0 else Err ValueError.
Proof.
  intros Hy Hm Hd Hh Hmi. unfold cftime_from_iso, text_minute. rewrite year_digits by lia. cbn [bind snd fst].
  assert (Ec : count ":" (digits 4 y ++ "-" ++ digits 2 m ++ "-" ++ digits 2 d ++ "T" ++ digits 2 hh ++ ":" ++ digits 2 mm) = 1%nat) by (rewrite !count_app, !count_digits; reflexivity).
  rewrite Ec. cbn [Nat.eqb]. rewrite literal_app. cbn [bind].
  destruct (Z.leb_spec 1 m); cbn [andb]; [|rewrite field_digits_err by lia; reflexivity].
  destruct (Z.leb_spec m 12); cbn [andb]; [|rewrite field_digits_err by lia; reflexivity].
  rewrite field_digits by lia. cbn [bind snd fst]. rewrite literal_app. cbn [bind].
  destruct (Z.leb_spec 1 d); cbn [andb]; [|rewrite field_digits_err by lia; reflexivity].
  destruct (Z.leb_spec d 31); cbn [andb]; [|rewrite field_digits_err by lia; reflexivity].
  rewrite field_digits by lia. cbn [bind snd fst]. rewrite literal_app. cbn [bind].
  destruct (Z.leb_spec hh 23); cbn [andb]; [|rewrite field_digits_err by lia; reflexivity].
  rewrite field_digits by lia. cbn [bind snd fst]. rewrite literal_app. cbn [bind].
  replace (digits 2 mm) with (digits 2 mm ++ "") by (rewrite digits2; reflexivity).
  destruct (Z.leb_spec mm 59); cbn [andb]; [|rewrite field_digits_err by lia; reflexivity].
  rewrite field_digits by lia. cbn [bind snd fst the_end]. reflexivity.
Qed.
Lemma parse_second c y m d hh mm ss : 1000 <= y <= 9999 -> 0 <= m < 100 -> 0 <= d < 100 -> 0 <= hh < 100 -> 0 <= mm < 100 -> 0 <= ss < 100 ->
  cftime_from_iso c (text_second y m d hh mm ss) =
  if (Z.leb 1 m && Z.leb m 12 && Z.leb 1 d && Z.leb d 31 && Z.leb hh 23 && Z.leb mm 59 && Z.leb ss 59)%bool then make_time c y m d hh mm ss else Err ValueError.
Proof.
  intros Hy Hm Hd Hh Hmi Hs. unfold cftime_from_iso, text_second, text_minute. rewrite !append_assoc. rewrite year_digits by lia. cbn [bind snd fst].
  assert (Ec : count ":" (digits 4 y ++ "-" ++ digits 2 m ++ "-" ++ digits 2 d ++ "T" ++ digits 2 hh ++ ":" ++ digits 2 mm ++ ":" ++ digits 2 ss) = 2%nat) by (rewrite !count_app, !count_digits; reflexivity).
  rewrite Ec. cbn [Nat.eqb]. rewrite literal_app. cbn [bind].
  destruct (Z.leb_spec 1 m); cbn [andb]; [|rewrite field_digits_err by lia; reflexivity].
  destruct (Z.leb_spec m 12); cbn [andb]; [|rewrite field_digits_err by lia; reflexivity].
  rewrite field_digits by lia. cbn [bind snd fst]. rewrite literal_app. cbn [bind].
  destruct (Z.leb_spec 1 d); cbn [andb]; [|rewrite field_digits_err by lia; reflexivity].
  destruct (Z.leb_spec d 31); cbn [andb]; [|rewrite field_digits_err by lia; reflexivity].
  rewrite field_digits by lia. cbn [bind snd fst]. rewrite literal_app. cbn [bind].
  destruct (Z.leb_spec hh 23); cbn [andb]; [|rewrite field_digits_err by lia; reflexivity].
  rewrite field_digits by lia. cbn [bind snd fst]. rewrite literal_app. cbn [bind].
  destruct (Z.leb_spec mm 59); cbn [andb]; [|rewrite field_digits_err by lia; reflexivity].
  rewrite field_digits by lia. cbn [bind snd fst]. rewrite literal_app. cbn [bind].
  replace (digits 2 ss) with (digits 2 ss ++ "") by (rewrite digits2; reflexivity).
  destruct (Z.leb_spec ss 59); cbn [andb]; [|rewrite field_digits_err by lia; reflexivity].
  rewrite field_digits by lia. cbn [bind snd fst the_end]. reflexivity.
Qed.
Theorem C42_reads_dates c y m d hh mm ss : 1000 <= y <= 9999 -> 0 <= m < 100 -> 0 <= d < 100 -> 0 <= hh < 100 -> 0 <= mm < 100 -> 0 <= ss < 100 ->
  let ok := exists_day c y m d /\ hh < 24 /\ mm < 60 /\ ss < 60 in
  (ok -> exists t, cftime_from_iso c (text_second y m d hh mm ss) = OK t /\ date_of c t = Some (y, m, d) /\ second_of_day t = hh * 3600 + mm * 60 + ss /\ t mod usec = 0) /\
  (~ ok -> cftime_from_iso c (text_second y m d hh mm ss) = Err ValueError) /\
  (* without seconds *)
  cftime_from_iso c (text_minute y m d hh mm) = cftime_from_iso c (text_second y m d hh mm 0).
Proof.
  intros Hy Hm Hd Hh Hmi Hs ok.
  assert (Hex : exists_day c y m d -> 1 <= m <= 12 /\ 1 <= d <= 31) by (intros [n C]; apply civil_bounds in C; lia).
  rewrite parse_minute, !parse_second by lia. rewrite andb_true_r. split; [|split; [|reflexivity]].
  - intros (X & H1 & H2 & H3). destruct (Hex X) as [Hm' Hd']. destruct (make_time_ok c y m d hh mm ss) as (A & B & _); try lia.
    destruct (B X) as [t Et]. exists t. replace (Z.leb 1 m) with true by (symmetry; apply Z.leb_le; lia). replace (Z.leb m 12) with true by (symmetry; apply Z.leb_le; lia).
    replace (Z.leb 1 d) with true by (symmetry; apply Z.leb_le; lia). replace (Z.leb d 31) with true by (symmetry; apply Z.leb_le; lia).
    replace (Z.leb hh 23) with true by (symmetry; apply Z.leb_le; lia). replace (Z.leb mm 59) with true by (symmetry; apply Z.leb_le; lia). replace (Z.leb ss 59) with true by (symmetry; apply Z.leb_le; lia).
    cbn [andb]. split; [exact Et|]. now apply A.
  - intros N. destruct (Z.leb_spec 1 m), (Z.leb_spec m 12), (Z.leb_spec 1 d), (Z.leb_spec d 31), (Z.leb_spec hh 23), (Z.leb_spec mm 59), (Z.leb_spec ss 59); cbn [andb]; try reflexivity.
    destruct (make_time_ok c y m d hh mm ss) as (A & B & C); try lia. apply C. intros X. apply N. unfold ok. repeat split; auto; lia.
Qed.

(** ** C43 *)
Lemma export_text c t y m d : date_of c t = Some (y, m, d) ->
  export_date c t = text_minute y m d (second_of_day t / 3600) (second_of_day t / 60 mod 60) /\
  iso_date c t = text_second y m d (second_of_day t / 3600) (second_of_day t / 60 mod 60) (second_of_day t mod 60).
Proof. intros E. unfold export_date, iso_date, strf_day, text_second, text_minute. rewrite E. rewrite !append_assoc. auto. Qed.
(** Exporting a date and reading it back gives the date cut to the minute, in every calendar. *)
Theorem C43_export_cuts_to_the_minute c t : four_digit_year c t -> cftime_from_iso c (export_date c t) = OK (t - t mod (60 * usec)).
Proof.
  intros (y & m & d & E & Hy). pose proof (civil_bounds _ _ _ _ _ E) as (B1 & B2 & B3). destruct (export_text c t y m d E) as [-> _].
  pose proof (second_of_day_bound t) as Bs. set (s := second_of_day t) in *.
  assert (H1 : 0 <= s / 3600 < 24) by (split; [apply Z.div_pos; lia|apply Z.div_lt_upper_bound; lia]). assert (H2 := Z.mod_pos_bound (s / 60) 60 ltac:(lia)).
  destruct (C42_reads_dates c y m d (s / 3600) (s / 60 mod 60) 0) as (A & _ & ->); try lia.
  destruct A as (t' & Et & D & S & U); [repeat split; try lia; eexists; exact E|]. rewrite Et. f_equal.
  set (t0 := t - t mod (60 * usec)). pose proof (Z_div_mod_eq_full t (60 * usec)) as Q. pose proof (Z.mod_pos_bound t (60 * usec) ltac:(unfold usec; lia)) as Q'.
  pose proof (minute_split t) as Ms. fold s in Ms.
  assert (Es60 : 3600 * (s / 3600) + 60 * (s / 60 mod 60) = 60 * (s / 60)).
  { pose proof (Z_div_mod_eq_full (s / 60) 60) as Z1. rewrite Z.div_div in Z1 by lia. change (60 * 60) with 3600 in Z1. lia. }
  assert (T0 : t0 = t / day_us * day_us + (60 * (s / 60)) * usec) by (unfold t0, day_us in *; lia).
  assert (Hs60 : 0 <= 60 * (s / 60) * usec < day_us) by (pose proof (Z_div_mod_eq_full s 60); pose proof (Z.mod_pos_bound s 60 ltac:(lia)); unfold day_us, usec; lia).
  assert (Ed : t0 / day_us = t / day_us) by (rewrite T0; symmetry; apply (Z.div_unique_pos _ _ _ (60 * (s / 60) * usec)); lia).
  apply (time_unique c).
  - rewrite D. unfold date_of, day_of in *. rewrite Ed. now rewrite E.
  - rewrite D. discriminate.
  - rewrite S. unfold second_of_day. replace (t0 mod day_us) with (60 * (s / 60) * usec) by (rewrite T0; apply (Z.mod_unique_pos _ _ (t / day_us)); lia).
    rewrite Z.div_mul by (unfold usec; lia). lia.
  - rewrite U. symmetry. unfold t0. replace (t - t mod (60 * usec)) with ((60 * (t / (60 * usec))) * usec) by lia. apply Z.mod_mul. unfold usec; lia.
Qed.
(** the intended statement, for dates on a whole minute *)
Theorem C43_round_trip_partial c t : four_digit_year c t -> t mod (60 * usec) = 0 -> cftime_from_iso c (export_date c t) = OK t.
Proof. intros H E. rewrite C43_export_cuts_to_the_minute by exact H. rewrite E. f_equal. lia. Qed.
(** every accepted date with a non-zero number of seconds comes back changed *)
Theorem C43_seconds_are_lost_refuted c y m d hh mm ss : 1000 <= y <= 9999 -> exists_day c y m d -> 0 <= hh < 24 -> 0 <= mm < 60 -> 0 < ss < 60 ->
  exists t t', cftime_from_iso c (text_second y m d hh mm ss) = OK t /\ cftime_from_iso c (export_date c t) = OK t' /\ t' = t - ss * usec /\ t' <> t.
Proof.
  intros Hy X Hh Hmi Hs. destruct X as [n C]. pose proof (civil_bounds _ _ _ _ _ C) as (B1 & B2 & B3).
  destruct (C42_reads_dates c y m d hh mm ss) as (A & _ & _); try lia. destruct A as (t & Et & D & S & U); [repeat split; try lia; now exists n|].
  exists t, (t - ss * usec). split; [exact Et|]. rewrite C43_export_cuts_to_the_minute by (exists y, m, d; split; [exact D|lia]).
  assert (E : t mod (60 * usec) = ss * usec).
  { pose proof (second_of_day_spec t) as Q. rewrite S in Q. pose proof (Z_div_mod_eq_full t usec) as Q2. rewrite U in Q2.
    symmetry. apply (Z.mod_unique_pos _ _ (1440 * (t / day_us) + hh * 60 + mm)); unfold usec in *; lia. }
  rewrite E. split; [reflexivity|]. split; [reflexivity|]. unfold usec. lia.
Qed.
(** The ISO text with seconds (used for pandas timestamps, calendar.py l.134-135) does come back, for
    dates on a whole second. *)
Theorem C43_iso_round_trip c t : four_digit_year c t -> t mod usec = 0 -> cftime_from_iso c (iso_date c t) = OK t.
Proof.
  intros (y & m & d & E & Hy) U0. pose proof (civil_bounds _ _ _ _ _ E) as (B1 & B2 & B3). destruct (export_text c t y m d E) as [_ ->].
  pose proof (second_of_day_bound t) as Bs. set (s := second_of_day t) in *.
  assert (H1 : 0 <= s / 3600 < 24) by (split; [apply Z.div_pos; lia|apply Z.div_lt_upper_bound; lia]). assert (H2 := Z.mod_pos_bound (s / 60) 60 ltac:(lia)). assert (H3 := Z.mod_pos_bound s 60 ltac:(lia)).
  destruct (C42_reads_dates c y m d (s / 3600) (s / 60 mod 60) (s mod 60)) as (A & _ & _); try lia.
  destruct A as (t' & Et & D & S & U); [repeat split; try lia; eexists; exact E|]. rewrite Et. f_equal.
  apply (time_unique c); [now rewrite D, E|rewrite D; discriminate| |now rewrite U, U0]. rewrite S. fold s.
  pose proof (Z_div_mod_eq_full (s / 60) 60) as Z1. rewrite Z.div_div in Z1 by lia. change (60 * 60) with 3600 in Z1. pose proof (Z_div_mod_eq_full s 60). lia.
Qed.
Lemma exists_day_iff c y m d : 1 <= y <= 9999 -> 1 <= m <= 12 -> exists_day c y m d <-> exists k, day_index c y m d = Some k.
Proof.
  intros Hy Hm. split.
  - intros [n C]. apply civil_spec in C as (_ & _ & _ & k & Hk & -> & _). exists k. now apply day_index_of_label.
  - intros [k E]. apply day_index_label in E as [Hk Hd]. eexists. rewrite <- Hd. now apply civil_complete.
Qed.
Example C42_witness : exists_day Standard 2020 2 29 /\ ~ exists_day NoLeap 2020 2 29 /\ ~ exists_day Standard 1582 10 10 /\ exists_day Day360 2021 2 30 /\ ~ exists_day Standard 1900 2 29.
Proof.
  rewrite !exists_day_iff by lia. split; [eexists; reflexivity|]. split; [intros [k E]; discriminate|]. split; [intros [k E]; discriminate|]. split; [eexists; reflexivity|intros [k E]; discriminate].
Qed.
