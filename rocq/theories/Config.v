(** * C42: which configurations are accepted
    config.py l.27-37 (CALENDAR_TYPES), l.41-63 (BoundingBox, validate_region), l.540-583
    (convert_dates, check_date_order).  The model covers the calendar, the six dates, the tagging region
    and the tracking domain; the types of the other entries are checked by pydantic and left out. *)
From Coq Require Import Reals Lra Arith Lia Bool List ZArith String Ascii.
From Verif Require Import Num Arr Run Calendar DateText.
Import ListNotations.
Local Open Scope string_scope.
Local Open Scope list_scope.

(** ** Model *)
(** a box as read from the file: four floats, nan and inf included *)
Record box := mkbox { b_west : XR; b_south : XR; b_east : XR; b_north : XR }.
Inductive region := File (exists_ : bool) | Box (b : box).
(** the entries of the yaml file (dates as text) *)
Record settings := mksettings {
  calendar_entry : option string;
  tracking_start : string; tracking_end : string; tagging_start : string; tagging_end : string;
  preprocess_start : string; preprocess_end : string;
  tagging_region : region; tracking_domain : option box }.
Record config := mkconfig {
  cal : calendar;
  t_tracking_start : Z; t_tracking_end : Z; t_tagging_start : Z; t_tagging_end : Z; t_preprocess_start : Z; t_preprocess_end : Z;
  c_tagging_region : region; c_tracking_domain : option box }.
(** config.py l.27-37 with the classes of calendar.py l.33-53 *)
Definition calendar_of (s : string) : option calendar :=
  if String.eqb s "standard" then Some Standard else if String.eqb s "gregorian" then Some Standard
  else if String.eqb s "proleptic_gregorian" then Some ProlepticGregorian else if String.eqb s "noleap" then Some NoLeap
  else if String.eqb s "365_day" then Some NoLeap else if String.eqb s "360_day" then Some Day360
  else if String.eqb s "julian" then Some Julian else if String.eqb s "all_leap" then Some AllLeap
  else if String.eqb s "366_day" then Some AllLeap else None.
(** l.41-45: pydantic's Field(ge=..., le=...) on each entry of the tuple *)
Definition between (lo hi : Z) (x : XR) : bool := nle (N := XRnum) (nofZ lo) x && nle (N := XRnum) x (nofZ hi).
Definition BoundingBox (b : box) : res box :=
  if between (-180) 180 (b_west b) && between (-80) 80 (b_south b) && between (-180) 180 (b_east b) && between (-80) 80 (b_north b)
  then OK b else Err ValueError.
(** l.51-63; the assertions become validation errors *)
Definition validate_box (b : box) : res box :=
  if between (-180) 180 (b_west b) && between (-180) 180 (b_east b) && between (-80) 80 (b_north b) && between (-80) 80 (b_south b)
     && nlt (N := XRnum) (b_south b) (b_north b) then OK b else Err AssertionError.
Definition check_box (b : box) : res box := do b <- BoundingBox b; validate_box b.
Definition validate_region (r : region) : res region :=
  match r with
  | File e => if e then OK (File e) else Err ValueError     (* pydantic's FilePath *)
  | Box b => do b <- check_box b; OK (Box b)
  end.
(** l.540-562 and l.564-583 *)
Definition load_config (s : settings) : res config :=
  do c <- match calendar_entry s with
          | None => OK Standard
          | Some n => match calendar_of n with Some c => OK c | None => Err ValueError end
          end;
  do a <- cftime_from_iso c (tracking_start s);
  do b <- cftime_from_iso c (tracking_end s);
  do d <- cftime_from_iso c (tagging_start s);
  do e <- cftime_from_iso c (tagging_end s);
  do f <- cftime_from_iso c (preprocess_start s);
  do g <- cftime_from_iso c (preprocess_end s);
  do r <- validate_region (tagging_region s);
  do w <- match tracking_domain s with None => OK None | Some b => do b <- check_box b; OK (Some b) end;
  if Z.ltb b a then Err ValueError
  else if Z.ltb e d then Err ValueError
  else if Z.ltb g f then Err ValueError
  else OK (mkconfig c a b d e f g r w).

(** ** Specification *)
Local Open Scope R_scope.
Definition valid_box (b : box) : Prop := exists w s e n, b = mkbox (Fin w) (Fin s) (Fin e) (Fin n) /\
  -180 <= w <= 180 /\ -180 <= e <= 180 /\ -80 <= s /\ s < n /\ n <= 80.
Definition names (s : string) (c : calendar) : Prop :=
  In (s, c) [("standard", Standard); ("gregorian", Standard); ("proleptic_gregorian", ProlepticGregorian); ("noleap", NoLeap); ("365_day", NoLeap);
             ("360_day", Day360); ("julian", Julian); ("all_leap", AllLeap); ("366_day", AllLeap)].

(** ** Proof *)
Lemma between_iff lo hi x : between lo hi x = true <-> exists r, x = Fin r /\ IZR lo <= r <= IZR hi.
Proof.
  unfold between. rewrite andb_true_iff. cbn. destruct x as [r|[|]|]; cbn.
  - unfold Rleb. destruct (Rle_dec (IZR lo) r), (Rle_dec r (IZR hi)); split; try (intros [H1 H2]; discriminate).
    + intros _. exists r. auto.
    + auto.
    + intros (r' & [= <-] & H). lra.
    + intros (r' & [= <-] & H). lra.
    + intros (r' & [= <-] & H). lra.
  - split; [intros [H1 H2]; discriminate|intros (r & E & _); discriminate].
  - split; [intros [H1 H2]; discriminate|intros (r & E & _); discriminate].
  - split; [intros [H1 H2]; discriminate|intros (r & E & _); discriminate].
Qed.
Lemma xr_lt_fin a b : nlt (N := XRnum) (Fin a) (Fin b) = true <-> a < b.
Proof.
  cbn. unfold xr_lt. cbn. unfold Rleb, Reqb. destruct (Rle_dec a b), (Req_EM_T a b); cbn; split; intros; try discriminate; try lra; reflexivity.
Qed.
Theorem C42_boxes b : (forall b', check_box b = OK b' <-> b' = b /\ valid_box b) /\ (~ valid_box b -> exists e, check_box b = Err e).
Proof.
  assert (K : (exists b', check_box b = OK b') <-> valid_box b).
  { unfold check_box, BoundingBox, validate_box. destruct b as [w s e n]. cbn [b_west b_south b_east b_north].
    destruct (between (-180) 180 w) eqn:Ew; [apply between_iff in Ew as (rw & -> & Hw)|].
    2: { cbn. split; [intros [b' E]; discriminate|]. intros (rw & rs & re & rn & [= -> -> -> ->] & H). assert (X : between (-180) 180 (Fin rw) = true) by (apply between_iff; exists rw; split; [reflexivity|lra]). congruence. }
    destruct (between (-80) 80 s) eqn:Es; [apply between_iff in Es as (rs & -> & Hs)|].
    2: { cbn. split; [intros [b' E]; discriminate|]. intros (rw' & rs & re & rn & [= -> -> -> ->] & H). assert (X : between (-80) 80 (Fin rs) = true) by (apply between_iff; exists rs; split; [reflexivity|lra]). congruence. }
    destruct (between (-180) 180 e) eqn:Ee; [apply between_iff in Ee as (re & -> & He)|].
    2: { cbn. split; [intros [b' E]; discriminate|]. intros (rw' & rs' & re & rn & [= -> -> -> ->] & H). assert (X : between (-180) 180 (Fin re) = true) by (apply between_iff; exists re; split; [reflexivity|lra]). congruence. }
    destruct (between (-80) 80 n) eqn:En; [apply between_iff in En as (rn & -> & Hn)|].
    2: { cbn. split; [intros [b' E]; discriminate|]. intros (rw' & rs' & re' & rn & [= -> -> -> ->] & H). assert (X : between (-80) 80 (Fin rn) = true) by (apply between_iff; exists rn; split; [reflexivity|lra]). congruence. }
    cbn [andb bind b_west b_south b_east b_north].
    replace (between (-180) 180 (Fin rw)) with true by (symmetry; apply between_iff; eauto). replace (between (-80) 80 (Fin rs)) with true by (symmetry; apply between_iff; eauto).
    replace (between (-180) 180 (Fin re)) with true by (symmetry; apply between_iff; eauto). replace (between (-80) 80 (Fin rn)) with true by (symmetry; apply between_iff; eauto). cbn [andb].
    destruct (nlt (N := XRnum) (Fin rs) (Fin rn)) eqn:El.
    - apply xr_lt_fin in El. split; [intros _|eauto]. exists rw, rs, re, rn. split; [reflexivity|]. lra.
    - split; [intros [b' E]; discriminate|]. intros (rw' & rs' & re' & rn' & [= <- <- <- <-] & H). assert (X : nlt (N := XRnum) (Fin rs) (Fin rn) = true) by (apply xr_lt_fin; lra). congruence. }
  assert (Same : forall b', check_box b = OK b' -> b' = b).
  { intros b'. unfold check_box, BoundingBox, validate_box. destruct (_ && _ && _ && _)%bool; cbn [bind]; [|discriminate]. destruct (_ && _)%bool; [now intros [= <-]|discriminate]. }
  split.
  - intros b'. split; [intros E; split; [now apply Same|apply K; eauto]|]. intros [-> H]. apply K in H as [b' E]. rewrite E. f_equal. now apply Same.
  - intros N. destruct (check_box b) as [b'|e] eqn:E; [|eauto]. exfalso. apply N, K. eauto.
Qed.
Lemma calendar_of_iff s c : calendar_of s = Some c <-> names s c.
Proof.
  unfold calendar_of, names. split.
  - repeat (match goal with |- (if String.eqb s ?n then _ else _) = _ -> _ => destruct (String.eqb_spec s n) as [->|]; [intros [= <-]; cbn; auto 12|] end). discriminate.
  - cbn. intros H. repeat (destruct H as [[= <- <-]|H]; [reflexivity|]). destruct H.
Qed.
(** A configuration is accepted iff the calendar is known (or left out, then it is the standard one), the
    dates are dates of that calendar, start is not later than end three times, the regions are valid boxes or an
    existing file; and then it holds exactly what was written. *)
Theorem C42_accepted_configurations s cfg : load_config s = OK cfg <->
  (match calendar_entry s with None => cal cfg = Standard | Some n => names n (cal cfg) end) /\
  (cftime_from_iso (cal cfg) (tracking_start s) = OK (t_tracking_start cfg) /\ cftime_from_iso (cal cfg) (tracking_end s) = OK (t_tracking_end cfg) /\
   cftime_from_iso (cal cfg) (tagging_start s) = OK (t_tagging_start cfg) /\ cftime_from_iso (cal cfg) (tagging_end s) = OK (t_tagging_end cfg) /\
   cftime_from_iso (cal cfg) (preprocess_start s) = OK (t_preprocess_start cfg) /\ cftime_from_iso (cal cfg) (preprocess_end s) = OK (t_preprocess_end cfg)) /\
  (t_tracking_start cfg <= t_tracking_end cfg /\ t_tagging_start cfg <= t_tagging_end cfg /\ t_preprocess_start cfg <= t_preprocess_end cfg)%Z /\
  (c_tagging_region cfg = tagging_region s /\ match tagging_region s with File e => e = true | Box b => valid_box b end) /\
  (c_tracking_domain cfg = tracking_domain s /\ match tracking_domain s with None => True | Some b => valid_box b end).
Proof.
  unfold load_config.
  assert (HC : forall c, match calendar_entry s with None => OK Standard | Some n => match calendar_of n with Some c => OK c | None => Err ValueError end end = OK c <->
                         match calendar_entry s with None => c = Standard | Some n => names n c end).
  { intros c. destruct (calendar_entry s) as [n|]; [|split; [now intros [= <-]|now intros ->]].
    rewrite <- calendar_of_iff. destruct (calendar_of n); split; try discriminate; now intros [= <-]. }
  assert (HR : forall r, validate_region (tagging_region s) = OK r <-> r = tagging_region s /\ match tagging_region s with File e => e = true | Box b => valid_box b end).
  { intros r. unfold validate_region. destruct (tagging_region s) as [[|]|b].
    - split; [now intros [= <-]|now intros [-> _]].
    - split; [discriminate|now intros [_ H]].
    - destruct (C42_boxes b) as [B _]. destruct (check_box b) as [b'|e] eqn:E; cbn [bind].
      + pose proof (proj1 (B b') eq_refl) as [-> V]. split; [now intros [= <-]|now intros [-> _]].
      + split; [discriminate|]. intros [-> V]. pose proof (proj2 (B b) (conj eq_refl V)). congruence. }
  assert (HW : forall w, match tracking_domain s with None => OK None | Some b => do b <- check_box b; OK (Some b) end = OK w <->
                         w = tracking_domain s /\ match tracking_domain s with None => True | Some b => valid_box b end).
  { intros w. destruct (tracking_domain s) as [b|]; [|split; [now intros [= <-]|now intros [-> _]]].
    destruct (C42_boxes b) as [B _]. destruct (check_box b) as [b'|e] eqn:E; cbn [bind].
    + pose proof (proj1 (B b') eq_refl) as [-> V]. split; [now intros [= <-]|now intros [-> _]].
    + split; [discriminate|]. intros [-> V]. pose proof (proj2 (B b) (conj eq_refl V)). congruence. }
  split.
  - destruct (match calendar_entry s with None => OK Standard | Some n => match calendar_of n with Some c => OK c | None => Err ValueError end end) as [c|] eqn:Ec; cbn [bind]; [|discriminate].
    destruct (cftime_from_iso c (tracking_start s)) as [a|] eqn:E1; cbn [bind]; [|discriminate].
    destruct (cftime_from_iso c (tracking_end s)) as [b|] eqn:E2; cbn [bind]; [|discriminate].
    destruct (cftime_from_iso c (tagging_start s)) as [d|] eqn:E3; cbn [bind]; [|discriminate].
    destruct (cftime_from_iso c (tagging_end s)) as [e|] eqn:E4; cbn [bind]; [|discriminate].
    destruct (cftime_from_iso c (preprocess_start s)) as [f|] eqn:E5; cbn [bind]; [|discriminate].
    destruct (cftime_from_iso c (preprocess_end s)) as [g|] eqn:E6; cbn [bind]; [|discriminate].
    destruct (validate_region (tagging_region s)) as [r|] eqn:E7; cbn [bind]; [|discriminate].
    destruct (match tracking_domain s with None => OK None | Some b => do b <- check_box b; OK (Some b) end) as [w|] eqn:E8; cbn [bind]; [|discriminate].
    destruct (Z.ltb_spec b a); [discriminate|]. destruct (Z.ltb_spec e d); [discriminate|]. destruct (Z.ltb_spec g f); [discriminate|]. intros [= <-].
    cbn [cal t_tracking_start t_tracking_end t_tagging_start t_tagging_end t_preprocess_start t_preprocess_end c_tagging_region c_tracking_domain].
    split; [now apply HC|]. split; [auto 10|]. split; [lia|]. split; [now apply HR|now apply HW].
  - destruct cfg as [c a b d e f g r w]. cbn [cal t_tracking_start t_tracking_end t_tagging_start t_tagging_end t_preprocess_start t_preprocess_end c_tagging_region c_tracking_domain].
    intros (Hc & (E1 & E2 & E3 & E4 & E5 & E6) & Hz & Hr & Hw). apply HC in Hc. apply HR in Hr. apply HW in Hw.
    rewrite Hc. cbn [bind]. rewrite E1. cbn [bind]. rewrite E2. cbn [bind]. rewrite E3. cbn [bind]. rewrite E4. cbn [bind]. rewrite E5. cbn [bind]. rewrite E6. cbn [bind].
    rewrite Hr. cbn [bind]. rewrite Hw. cbn [bind]. destruct (Z.ltb_spec b a); [lia|]. destruct (Z.ltb_spec e d); [lia|]. destruct (Z.ltb_spec g f); [lia|]. reflexivity.
Qed.
(** a configuration that is accepted *)
Definition ex_settings : settings :=
  let d := text_minute 2021 7 1 0 0 in
  mksettings (Some "360_day") d (text_second 2021 7 30 23 0 0) d d (text_minute 2021 2 30 0 0) d (Box (mkbox (Fin 170) (Fin (-10)) (Fin (-170)) (Fin 10))) None.
Example C42_config_witness : exists cfg, load_config ex_settings = OK cfg.
Proof.
  assert (T : forall y m d h mi, (1000 <= y <= 9999 -> 0 <= m < 100 -> 0 <= d < 100 -> 0 <= h < 24 -> 0 <= mi < 60 -> exists_day Day360 y m d ->
     exists t, cftime_from_iso Day360 (text_minute y m d h mi) = OK t /\ date_of Day360 t = Some (y, m, d) /\ second_of_day t = h * 3600 + mi * 60)%Z).
  { intros y m d h mi H1 H2 H3 H4 H5 X. destruct (C42_reads_dates Day360 y m d h mi 0) as (A & _ & E); try lia. rewrite E.
    destruct A as (t & Et & D & S & _); [repeat split; auto; lia|]. exists t. repeat split; auto. lia. }
  assert (X1 : exists_day Day360 2021 7 1) by (apply exists_day_iff; [lia|lia|eexists; reflexivity]).
  assert (X2 : exists_day Day360 2021 7 30) by (apply exists_day_iff; [lia|lia|eexists; reflexivity]).
  assert (X3 : exists_day Day360 2021 2 30) by (apply exists_day_iff; [lia|lia|eexists; reflexivity]).
  assert (M : forall y m d h mi s k, (1 <= y <= 9999)%Z -> (1 <= m <= 12)%Z -> day_index Day360 y m d = Some k ->
     make_time Day360 y m d h mi s = OK ((days_before_year Day360 y + zsum (firstn (Z.to_nat (m - 1)) (month_days Day360 y)) + k - epoch_day Day360) * day_us + (h * 3600 + mi * 60 + s) * usec)%Z).
  { intros y m d h mi s k Hy Hm E. unfold make_time. rewrite E. destruct (Z.ltb_spec y 1); [lia|reflexivity]. }
  eexists. apply C42_accepted_configurations. cbn [ex_settings calendar_entry tracking_start tracking_end tagging_start tagging_end preprocess_start preprocess_end tagging_region tracking_domain].
  instantiate (1 := mkconfig Day360 _ _ _ _ _ _ _ _). cbn [cal t_tracking_start t_tracking_end t_tagging_start t_tagging_end t_preprocess_start t_preprocess_end c_tagging_region c_tracking_domain].
  split; [cbn; auto 12|].
  assert (P1 := parse_minute Day360 2021 7 1 0 0 ltac:(lia) ltac:(lia) ltac:(lia) ltac:(lia) ltac:(lia)). assert (P2 := parse_second Day360 2021 7 30 23 0 0 ltac:(lia) ltac:(lia) ltac:(lia) ltac:(lia) ltac:(lia) ltac:(lia)).
  assert (P3 := parse_minute Day360 2021 2 30 0 0 ltac:(lia) ltac:(lia) ltac:(lia) ltac:(lia) ltac:(lia)). cbn [Z.leb Z.compare Pos.compare Pos.compare_cont andb] in P1, P2, P3.
  rewrite (M 2021 7 1 0 0 0 0)%Z in P1 by (lia || reflexivity). rewrite (M 2021 7 30 23 0 0 29)%Z in P2 by (lia || reflexivity). rewrite (M 2021 2 30 0 0 0 29)%Z in P3 by (lia || reflexivity).
  split; [rewrite P1, P2, P3; auto 10|].
  assert (Z1 : zsum (firstn (Z.to_nat (7 - 1)) (month_days Day360 2021)) = 180%Z) by reflexivity. assert (Z2 : zsum (firstn (Z.to_nat (2 - 1)) (month_days Day360 2021)) = 30%Z) by reflexivity.
  rewrite Z1, Z2. unfold day_us, usec. split; [lia|]. split; [split; [reflexivity|]|split; [reflexivity|exact I]].
  exists 170, (-10), (-170), 10. split; [reflexivity|lra].
Qed.
