(** * C44, C45: frequencies and DOIs
    utils/calendar.py l.86-110 (fix_deprecated_frequency), download.py l.14-44 (parse_doi), l.75-88 (get_4tu_id).
    Strings are ASCII: for other characters Python's \d and (?i) accept a few more. *)
From Coq Require Import Arith Lia Bool List String Ascii.
From Verif Require Import Num Arr.
Import ListNotations.
Local Open Scope string_scope.
Local Open Scope list_scope.
Local Open Scope nat_scope.

(** ** Characters *)
Definition is_digit (a : ascii) : bool := let n := nat_of_ascii a in (48 <=? n) && (n <=? 57).
Definition lower (a : ascii) : ascii := let n := nat_of_ascii a in if (65 <=? n) && (n <=? 90) then ascii_of_nat (n + 32) else a.
Definition is_letter (a : ascii) : bool := let n := nat_of_ascii (lower a) in (97 <=? n) && (n <=? 122).
Fixpoint eq_ci (s t : string) : bool :=
  match s, t with
  | EmptyString, EmptyString => true
  | String a s, String b t => Ascii.eqb (lower a) (lower b) && eq_ci s t
  | _, _ => false
  end.

(** ** Model of fix_deprecated_frequency *)
(** re.fullmatch of (?i)^(\d* )X$ : the text of the group *)
Fixpoint fullmatch (alias s : string) : option string :=
  if eq_ci s alias then Some EmptyString else
  match s with
  | String a s => if is_digit a then match fullmatch alias s with Some ds => Some (String a ds) | None => None end else None
  | EmptyString => None
  end.
(** l.96-105 *)
Definition deprecated_map : list (string * string) :=
  [("CBH", "cbh"); ("BH", "bh"); ("H", "h"); ("T", "min"); ("S", "s"); ("L", "ms"); ("U", "us"); ("N", "ns")].
(** l.107-110: the first pattern that matches *)
Fixpoint fix_with (l : list (string * string)) (freq : string) : string :=
  match l with
  | [] => freq
  | (alias, repl) :: l => match fullmatch alias freq with Some ds => (ds ++ repl)%string | None => fix_with l freq end
  end.
Definition fix_deprecated_frequency (freq : string) : string := fix_with deprecated_map freq.

(** ** Specification of C44 *)
Fixpoint all_chars (p : ascii -> bool) (s : string) : bool := match s with EmptyString => true | String a s => p a && all_chars p s end.
Fixpoint char_in (a : ascii) (set : string) : bool := match set with EmptyString => false | String b set => Ascii.eqb a b || char_in a set end.
(** all characters of the text are in the set *)
Definition consists_of (set s : string) : Prop := all_chars (fun a => char_in a set) s = true.
Definition decimal : string := "0123456789".
Definition alphabet : string := "abcdefghijklmnopqrstuvwxyz".
Definition capitals : string := "ABCDEFGHIJKLMNOPQRSTUVWXYZ".
(** the text in capitals *)
Fixpoint capital (a : ascii) (small big : string) : ascii :=
  match small, big with String b small, String c big => if Ascii.eqb a b then c else capital a small big | _, _ => a end.
Fixpoint upcase (s : string) : string := match s with EmptyString => EmptyString | String a s => String (capital a alphabet capitals) (upcase s) end.
(** the aliases that pandas renamed *)
Definition renamed : list (string * string) :=
  [("CBH", "cbh"); ("BH", "bh"); ("H", "h"); ("T", "min"); ("S", "s"); ("L", "ms"); ("U", "us"); ("N", "ns")].
(** [freq] is a number (possibly empty) and the deprecated alias [old], in upper or lower case *)
Definition deprecated (freq ds old new : string) : Prop :=
  exists x, freq = (ds ++ x)%string /\ consists_of decimal ds /\ upcase x = old /\ In (old, new) renamed.

Lemma all_chars_ext p q s : (forall a, p a = q a) -> all_chars p s = all_chars q s.
Proof. intros H. induction s as [|a s IH]; cbn; [reflexivity|]. now rewrite H, IH. Qed.
Lemma consists_decimal s : consists_of decimal s <-> all_chars is_digit s = true.
Proof. unfold consists_of. rewrite (all_chars_ext _ is_digit); [reflexivity|]. intros a. destruct a as [[] [] [] [] [] [] [] []]; reflexivity. Qed.
Lemma capital_lower a : capital (lower a) alphabet capitals = capital a alphabet capitals.
Proof. destruct a as [[] [] [] [] [] [] [] []]; reflexivity. Qed.
Lemma lower_capital a : lower (capital a alphabet capitals) = lower a.
Proof. destruct a as [[] [] [] [] [] [] [] []]; reflexivity. Qed.
Lemma eq_ci_upcase s : forall t, eq_ci s t = true <-> upcase s = upcase t.
Proof.
  induction s as [|a s IH]; intros [|b t]; cbn [eq_ci upcase]; try (split; [reflexivity|reflexivity]); try (split; discriminate).
  rewrite andb_true_iff, Ascii.eqb_eq, IH. split.
  - intros [H ->]. rewrite <- (capital_lower a), H, capital_lower. reflexivity.
  - intros H. assert (H1 : capital a alphabet capitals = capital b alphabet capitals) by congruence. assert (H2 : upcase s = upcase t) by congruence.
    split; [|exact H2]. rewrite <- (lower_capital a), H1, lower_capital. reflexivity.
Qed.
Lemma deprecated_iff freq ds old new : deprecated freq ds old new <->
  exists x, freq = (ds ++ x)%string /\ all_chars is_digit ds = true /\ eq_ci x old = true /\ In (old, new) deprecated_map.
Proof.
  assert (U : forall o n, In (o, n) renamed -> upcase o = o) by (intros o n H; cbn in H; repeat (destruct H as [[= <- <-]|H]; [reflexivity|]); destruct H).
  split; intros (x & F & D & X & I); exists x; (split; [exact F|]).
  - split; [now apply consists_decimal|]. split; [|exact I]. apply eq_ci_upcase. rewrite X. symmetry. exact (U _ _ I).
  - split; [now apply consists_decimal|]. split; [|exact I]. apply eq_ci_upcase in X. rewrite X. exact (U _ _ I).
Qed.

Lemma eq_ci_head a s b t : eq_ci (String a s) (String b t) = true -> lower a = lower b.
Proof. cbn. intros H. apply andb_true_iff in H as [H _]. now apply Ascii.eqb_eq in H. Qed.
Lemma digit_lower a : is_digit a = true -> lower a = a.
Proof. unfold is_digit, lower. rewrite andb_true_iff, !Nat.leb_le. intros [H1 H2]. destruct (Nat.leb_spec 65 (nat_of_ascii a)); cbn [andb]; [lia|reflexivity]. Qed.
Lemma digit_not_letter a : is_digit a = true -> is_letter a = false.
Proof.
  intros H. unfold is_letter. rewrite (digit_lower a H). unfold is_digit in H. rewrite andb_true_iff, !Nat.leb_le in H.
  destruct (Nat.leb_spec 97 (nat_of_ascii a)); [lia|reflexivity].
Qed.
Lemma fullmatch_spec alias : alias <> "" -> all_chars is_letter alias = true -> forall s ds,
  fullmatch alias s = Some ds <-> exists x, s = (ds ++ x)%string /\ all_chars is_digit ds = true /\ eq_ci x alias = true.
Proof.
  intros Ne Al. destruct alias as [|b alias]; [congruence|]. apply andb_true_iff in Al as [Lb _].
  assert (Hd : forall a s, is_digit a = true -> eq_ci (String a s) (String b alias) = false).
  { intros a s Ha. destruct (eq_ci (String a s) (String b alias)) eqn:E; [|reflexivity]. apply eq_ci_head in E. apply digit_not_letter in Ha. unfold is_letter in *. rewrite E in Ha. congruence. }
  induction s as [|a s IH]; intros ds.
  - split; [intros H; discriminate H|]. intros (x & E & _ & H). destruct ds; [cbn in E; subst x; discriminate|discriminate].
  - destruct (is_digit a) eqn:Da.
    + assert (F : fullmatch (String b alias) (String a s) = match fullmatch (String b alias) s with Some ds => Some (String a ds) | None => None end).
      { cbn [fullmatch]. rewrite (Hd a s Da), Da. reflexivity. }
      rewrite F. split.
      * destruct (fullmatch (String b alias) s) as [d|] eqn:E; [|discriminate]. intros [= <-]. destruct (proj1 (IH d) eq_refl) as (x & -> & Hx & Hc). exists x. cbn. rewrite Da. auto.
      * intros (x & E & Hx & Hc). destruct ds as [|a' ds]; [cbn in E; subst x; rewrite (Hd a s Da) in Hc; discriminate|].
        cbn in E. injection E as <- ->. cbn in Hx. apply andb_true_iff in Hx as [_ Hx].
        assert (E : fullmatch (String b alias) (ds ++ x) = Some ds) by (apply IH; eauto). rewrite E. reflexivity.
    + cbn [fullmatch]. rewrite Da. destruct (eq_ci (String a s) (String b alias)) eqn:E.
      * split.
        -- intros [= <-]. exists (String a s). auto.
        -- intros (x & E' & Hx & _). destruct ds as [|a' ds]; [reflexivity|]. cbn in E'. injection E' as <- _. cbn in Hx. rewrite Da in Hx. discriminate.
      * split; [discriminate|]. intros (x & E' & Hx & Hc). destruct ds as [|a' ds]; [cbn in E'; subst x; congruence|]. cbn in E'. injection E' as <- _. cbn in Hx. rewrite Da in Hx. discriminate.
Qed.
Lemma aliases_ok alias repl : In (alias, repl) deprecated_map -> alias <> "" /\ all_chars is_letter alias = true.
Proof. cbn. intros H. repeat (destruct H as [[= <- <-]|H]; [split; [discriminate|reflexivity]|]). destruct H. Qed.
Lemma eq_ci_len x y : eq_ci x y = true -> String.length x = String.length y.
Proof. revert y. induction x as [|a x IH]; intros [|b y]; cbn; try discriminate; auto. intros H. apply andb_true_iff in H as [_ H]. f_equal. auto. Qed.
Lemma eq_ci_trans x y z : eq_ci x y = true -> eq_ci x z = true -> eq_ci y z = true.
Proof.
  revert y z. induction x as [|a x IH]; intros [|b y] [|c z]; cbn; try discriminate; auto. intros H1 H2. apply andb_true_iff in H1 as [A1 B1]. apply andb_true_iff in H2 as [A2 B2].
  apply Ascii.eqb_eq in A1. apply Ascii.eqb_eq in A2. apply andb_true_iff. split; [apply Ascii.eqb_eq; congruence|eauto].
Qed.
(** the number and the alias of a frequency are determined *)
Lemma split_unique ds ds' x x' al al' : (ds ++ x = ds' ++ x')%string -> all_chars is_digit ds = true -> all_chars is_digit ds' = true ->
  eq_ci x al = true -> eq_ci x' al' = true -> al <> "" -> al' <> "" -> all_chars is_letter al = true -> all_chars is_letter al' = true -> ds = ds' /\ x = x'.
Proof.
  revert ds'. induction ds as [|a ds IH]; intros [|a' ds'] E D D' X X' N N' L L'; cbn in E.
  - auto.
  - exfalso. subst x. destruct al as [|b al]; [congruence|]. apply eq_ci_head in X. cbn in D', L. apply andb_true_iff in D' as [D' _]. apply andb_true_iff in L as [L _]. apply digit_not_letter in D'. unfold is_letter in *. rewrite X in D'. congruence.
  - exfalso. subst x'. destruct al' as [|b al']; [congruence|]. apply eq_ci_head in X'. cbn in D, L'. apply andb_true_iff in D as [D _]. apply andb_true_iff in L' as [L' _]. apply digit_not_letter in D. unfold is_letter in *. rewrite X' in D. congruence.
  - injection E as <- E. cbn in D, D'. apply andb_true_iff in D as [_ D]. apply andb_true_iff in D' as [_ D']. destruct (IH ds' E D D' X X' N N' L L') as [-> ->]. auto.
Qed.
Lemma map_injective old new old' new' : In (old, new) deprecated_map -> In (old', new') deprecated_map -> eq_ci old old' = true -> new = new'.
Proof.
  cbn. intros H H' E. repeat (destruct H as [[= <- <-]|H]; [repeat (destruct H' as [[= <- <-]|H']; [first [reflexivity|discriminate E]|]); destruct H'|]). destruct H.
Qed.
Lemma fix_with_spec l freq : (forall o n, In (o, n) l -> In (o, n) deprecated_map) ->
  (exists ds old new x, freq = (ds ++ x)%string /\ all_chars is_digit ds = true /\ eq_ci x old = true /\ In (old, new) l /\ fix_with l freq = (ds ++ new)%string) \/
  (fix_with l freq = freq /\ forall ds old new x, freq = (ds ++ x)%string -> all_chars is_digit ds = true -> eq_ci x old = true -> ~ In (old, new) l).
Proof.
  induction l as [|[al re] l IH]; intros Sub; cbn [fix_with]; [right; split; [reflexivity|auto]|].
  destruct (aliases_ok al re (Sub _ _ (or_introl eq_refl))) as [N L]. destruct (fullmatch al freq) as [ds|] eqn:E.
  - left. apply (fullmatch_spec al N L) in E as (x & Ef & D & X). exists ds, al, re, x. repeat split; auto. now left.
  - destruct IH as [(ds & old & new & x & H1 & H2 & H3 & H4 & H5)|[H1 H2]].
    + intros o n H. apply Sub. now right.
    + left. exists ds, old, new, x. repeat split; auto. now right.
    + right. split; [exact H1|]. intros ds old new x F D X [[= <- <-]|I]; [|eapply H2; eauto].
      assert (fullmatch al freq = Some ds) by (apply (fullmatch_spec al N L); eauto). congruence.
Qed.

(** ** C44 *)
(** Exactly a number followed by a deprecated alias is rewritten, to the same number with the new alias;
    every other string is left alone. *)
Theorem C44_frequencies freq :
  (forall ds old new, deprecated freq ds old new -> fix_deprecated_frequency freq = (ds ++ new)%string) /\
  ((forall ds old new, ~ deprecated freq ds old new) -> fix_deprecated_frequency freq = freq).
Proof.
  unfold fix_deprecated_frequency. destruct (fix_with_spec deprecated_map freq ltac:(auto)) as [(ds & old & new & x & H1 & H2 & H3 & H4 & H5)|[H1 H2]]; split.
  - intros ds' old' new' P. apply deprecated_iff in P as (x' & F & D & X & I). rewrite H5. destruct (aliases_ok _ _ H4) as [N L]. destruct (aliases_ok _ _ I) as [N' L'].
    rewrite H1 in F. destruct (split_unique ds ds' x x' old old' F H2 D H3 X N N' L L') as [-> ->]. f_equal. eapply map_injective; eauto. eapply eq_ci_trans; eauto.
  - intros H. exfalso. apply (H ds old new). apply deprecated_iff. exists x. auto.
  - intros ds old new P. apply deprecated_iff in P as (x & F & D & X & I). exfalso. eapply H2; eauto.
  - auto.
Qed.
(** The new aliases, and others that merely end in one of the letters, are left alone. *)
Lemma new_alias_fixed ds new : all_chars is_digit ds = true -> In new ["cbh"; "bh"; "h"; "min"; "s"; "ms"; "us"; "ns"; "D"; "MS"; "QS"; "YS"; "W"; "M"; "ME"] ->
  fix_deprecated_frequency (ds ++ new) = (ds ++ new)%string.
Proof.
  intros D I. unfold fix_deprecated_frequency.
  destruct (fix_with_spec deprecated_map (ds ++ new) ltac:(auto)) as [(ds' & old & new' & x & H1 & H2 & H3 & H4 & H5)|[H1 _]]; [|exact H1].
  destruct (aliases_ok _ _ H4) as [N L].
  assert (Ln : new <> "" /\ all_chars is_letter new = true /\ eq_ci new new = true) by (cbn in I; repeat (destruct I as [<-|I]; [split; [discriminate|split; reflexivity]|]); destruct I).
  destruct Ln as (Nn & Ln & Cn). destruct (split_unique ds ds' new x new old H1 D H2 Cn H3 Nn N Ln L) as [<- <-]. rewrite H5. f_equal.
  clear - I H3 H4. cbn in I, H4. repeat (destruct I as [<-|I]; [repeat (destruct H4 as [[= <- <-]|H4]; [first [reflexivity|discriminate H3]|]); destruct H4|]). destruct I.
Qed.
Theorem C44_idempotent freq : fix_deprecated_frequency (fix_deprecated_frequency freq) = fix_deprecated_frequency freq.
Proof.
  unfold fix_deprecated_frequency at 2 3. destruct (fix_with_spec deprecated_map freq ltac:(auto)) as [(ds & old & new & x & H1 & H2 & H3 & H4 & H5)|[H1 H2]].
  - rewrite H5. apply new_alias_fixed; [exact H2|]. cbn in H4. repeat (destruct H4 as [[= <- <-]|H4]; [cbn; auto 12|]). destruct H4.
  - rewrite H1. exact H1.
Qed.
Theorem C44_others_unchanged ds new : consists_of decimal ds -> In new ["cbh"; "bh"; "h"; "min"; "s"; "ms"; "us"; "ns"; "D"; "MS"; "QS"; "YS"; "W"; "M"; "ME"] ->
  fix_deprecated_frequency (ds ++ new) = (ds ++ new)%string.
Proof. intros D. apply new_alias_fixed. now apply consists_decimal. Qed.
Example C44_witness : deprecated "10T" "10" "T" "min" /\ fix_deprecated_frequency "10T" = "10min" /\ fix_deprecated_frequency "3H" = "3h" /\ fix_deprecated_frequency "QS" = "QS".
Proof. split; [exists "T"; repeat split; cbn; auto 12|]. repeat split. Qed.

(** ** Model of parse_doi *)
Definition newline : ascii := ascii_of_nat 10.
Definition slash : ascii := "/"%char.
(** [-._;()\/:A-Z0-9] with re.IGNORECASE *)
Definition suffix_char (a : ascii) : bool :=
  is_digit a || is_letter a || existsb (Ascii.eqb a) ["-"; "."; "_"; ";"; "("; ")"; "/"; ":"]%char.
(** [...]+$ : a non-empty text of such characters up to the end, or up to a newline at the end *)
Fixpoint suffix_tail (s : string) : option string :=
  match s with
  | EmptyString => Some EmptyString
  | String a s' => if suffix_char a then match suffix_tail s' with Some q => Some (String a q) | None => None end
                   else if Ascii.eqb a newline then match s' with EmptyString => Some EmptyString | _ => None end else None
  end.
Definition suffix (s : string) : option string :=
  match suffix_tail s with Some EmptyString => None | r => r end.
(** \d{4,9}\/ : the digits before the slash (the run of digits must be as long as that) *)
Fixpoint digits_slash (s : string) : option (string * string) :=
  match s with
  | String a s => if is_digit a then match digits_slash s with Some (d, r) => Some (String a d, r) | None => None end
                  else if Ascii.eqb a slash then Some (EmptyString, s) else None
  | EmptyString => None
  end.
(** the regular expression at the beginning of the text; the dot of 10. is any character but a newline *)
Definition match_here (s : string) : option (string * string) :=
  match s with
  | String a (String b (String c s)) =>
      if Ascii.eqb a "1" && Ascii.eqb b "0" && negb (Ascii.eqb c newline) then
        match digits_slash s with
        | Some (d, r) => if (4 <=? String.length d) && (String.length d <=? 9) then
                           match suffix r with Some q => Some (String a (String b (String c d)), q) | None => None end
                         else None
        | None => None
        end
      else None
  | _ => None
  end.
(** download.py l.34-44: re.search takes the leftmost match *)
Fixpoint parse_doi (s : string) : res (string * string) :=
  match match_here s with
  | Some r => OK r
  | None => match s with String _ s => parse_doi s | EmptyString => Err ValueError end
  end.
(** str.split(".")[0] *)
Fixpoint before_dot (s : string) : string := match s with EmptyString => EmptyString | String a s => if Ascii.eqb a "." then EmptyString else String a (before_dot s) end.
(** l.75-88 *)
Definition get_4tu_id (doi : string) : res string := do r <- parse_doi doi; OK (before_dot (snd r)).

(** ** Specification of C45 *)
(** the two parts of a DOI: "10." with a registrant of 4 to 9 digits, and a non-empty suffix *)
Definition doi_chars : string := (decimal ++ alphabet ++ capitals ++ "-._;()/:")%string.
Definition doi_parts (p q : string) : Prop :=
  (exists d, p = ("10." ++ d)%string /\ consists_of decimal d /\ 4 <= String.length d <= 9) /\ q <> "" /\ consists_of doi_chars q.
(** the digits 10 do not occur in the text *)
Fixpoint no_ten (s : string) : bool :=
  match s with
  | String a s' => negb (Ascii.eqb a "1" && match s' with String b _ => Ascii.eqb b "0" | _ => false end) && no_ten s'
  | EmptyString => true
  end.

Lemma consists_doi s : consists_of doi_chars s <-> all_chars suffix_char s = true.
Proof. unfold consists_of. rewrite (all_chars_ext _ suffix_char); [reflexivity|]. intros a. destruct a as [[] [] [] [] [] [] [] []]; reflexivity. Qed.
Lemma suffix_tail_all q : all_chars suffix_char q = true -> suffix_tail q = Some q.
Proof. induction q as [|a q IH]; cbn; [reflexivity|]. intros H. apply andb_true_iff in H as [-> H]. now rewrite IH. Qed.
Lemma suffix_tail_inv s q : suffix_tail s = Some q -> all_chars suffix_char q = true /\ (s = q \/ s = (q ++ String newline EmptyString)%string).
Proof.
  revert q. induction s as [|a s IH]; intros q; cbn [suffix_tail]; [intros [= <-]; auto|].
  destruct (suffix_char a) eqn:E.
  - destruct (suffix_tail s) as [q'|]; [|discriminate]. intros [= <-]. destruct (IH q' eq_refl) as [H [-> | ->]]; cbn; rewrite E; auto.
  - destruct (Ascii.eqb a newline) eqn:En; [|discriminate]. destruct s; [|discriminate]. intros [= <-]. apply Ascii.eqb_eq in En. subst a. auto.
Qed.
Lemma digit_not_slash a : is_digit a = true -> a <> slash.
Proof. intros H ->. discriminate. Qed.
Lemma digits_slash_ok d r : all_chars is_digit d = true -> digits_slash (d ++ String slash r) = Some (d, r).
Proof. induction d as [|a d IH]; cbn; [reflexivity|]. intros H. apply andb_true_iff in H as [-> H]. now rewrite IH. Qed.
Lemma digits_slash_inv s d r : digits_slash s = Some (d, r) -> all_chars is_digit d = true /\ s = (d ++ String slash r)%string.
Proof.
  revert d r. induction s as [|a s IH]; intros d r; cbn [digits_slash]; [discriminate|]. destruct (is_digit a) eqn:E.
  - destruct (digits_slash s) as [[d' r']|]; [|discriminate]. intros [= <- <-]. destruct (IH d' r' eq_refl) as [H ->]. cbn. rewrite E. auto.
  - destruct (Ascii.eqb a slash) eqn:Es; [|discriminate]. apply Ascii.eqb_eq in Es. subst a. intros [= <- <-]. auto.
Qed.
Lemma match_here_doi p q : doi_parts p q -> match_here (p ++ String slash q) = Some (p, q).
Proof.
  intros ((d & -> & D & L) & N & Q). apply consists_decimal in D. apply consists_doi in Q. cbn [String.append match_here]. cbn [Ascii.eqb Bool.eqb andb negb newline ascii_of_nat].
  change (Ascii.eqb "." newline) with false. cbn [negb]. change (("." ++ d) ++ String slash q)%string with (String "." (d ++ String slash q)).
  cbv iota. rewrite (digits_slash_ok d q D).
  destruct (Nat.leb_spec 4 (String.length d)); [|lia]. destruct (Nat.leb_spec (String.length d) 9); [|lia]. cbn [andb].
  unfold suffix. rewrite (suffix_tail_all q Q). destruct q; [congruence|reflexivity].
Qed.
Lemma match_here_inv s p q : match_here s = Some (p, q) -> exists c d, c <> newline /\ p = String "1" (String "0" (String c d)) /\ all_chars is_digit d = true /\ 4 <= String.length d <= 9 /\
  q <> "" /\ all_chars suffix_char q = true /\ (s = (p ++ String slash q)%string \/ s = (p ++ String slash (q ++ String newline EmptyString))%string).
Proof.
  destruct s as [|a [|b [|c s]]]; try discriminate. cbn [match_here].
  destruct (Ascii.eqb a "1") eqn:Ea; cbn [andb]; [|discriminate]. destruct (Ascii.eqb b "0") eqn:Eb; cbn [andb]; [|discriminate]. destruct (Ascii.eqb c newline) eqn:Ec; cbn [negb]; [discriminate|].
  apply Ascii.eqb_eq in Ea, Eb. apply Ascii.eqb_neq in Ec. subst a b. destruct (digits_slash s) as [[d r]|] eqn:E; [|discriminate].
  destruct (Nat.leb_spec 4 (String.length d)); cbn [andb]; [|discriminate]. destruct (Nat.leb_spec (String.length d) 9); [|discriminate].
  unfold suffix. destruct (suffix_tail r) as [[|x q']|] eqn:Es; try discriminate. intros [= <- <-].
  apply digits_slash_inv in E as [D ->]. apply suffix_tail_inv in Es as [Q R]. exists c, d. repeat split; auto; try lia; [discriminate|]. destruct R as [-> | ->]; cbn; auto.
Qed.
Lemma match_here_ten a s : match_here (String a s) <> None -> a = "1"%char /\ exists s', s = String "0" s'.
Proof.
  destruct s as [|b [|c s]]; cbn [match_here]; try congruence. destruct (Ascii.eqb a "1") eqn:Ea; cbn [andb]; [|congruence]. destruct (Ascii.eqb b "0") eqn:Eb; cbn [andb]; [|congruence].
  apply Ascii.eqb_eq in Ea, Eb. subst. eauto.
Qed.

(** ** C45 *)
(** Every DOI, after any text without "10" (https://doi.org/, doi:, nothing), is taken apart as it should. *)
Theorem C45_parses_dois r p q : no_ten r = true -> doi_parts p q -> parse_doi (r ++ p ++ String slash q) = OK (p, q).
Proof.
  intros R D. revert R. induction r as [|a r IH]; intros R.
  - cbn [String.append]. pose proof (match_here_doi p q D) as M. destruct (p ++ String slash q)%string eqn:E; cbn [parse_doi]; [discriminate M|]. now rewrite M.
  - cbn [String.append parse_doi]. destruct (match_here (String a (r ++ p ++ String slash q))) as [x|] eqn:M.
    + exfalso. assert (N : match_here (String a (r ++ p ++ String slash q)) <> None) by congruence. apply match_here_ten in N as [-> [s' E]].
      cbn [no_ten] in R. apply andb_true_iff in R as [R _]. destruct r as [|b r].
      * destruct D as ((d & -> & _) & _). cbn in E. discriminate.
      * cbn in E. injection E as -> _. discriminate R.
    + apply IH. cbn [no_ten] in R. apply andb_true_iff in R as [_ R]. exact R.
Qed.
(** What is returned occurs in the text as prefix/suffix at its end (a final newline is ignored); the
    prefix is 10, any character, and 4 to 9 digits. *)
Theorem C45_result_is_in_the_text_partial s p q : parse_doi s = OK (p, q) ->
  exists r c d, c <> newline /\ p = String "1" (String "0" (String c d)) /\ consists_of decimal d /\ 4 <= String.length d <= 9 /\ q <> "" /\ consists_of doi_chars q /\
    (s = (r ++ p ++ String slash q)%string \/ s = (r ++ p ++ String slash (q ++ String newline EmptyString))%string).
Proof.
  induction s as [|a s IH]; cbn [parse_doi]; [discriminate|].
  destruct (match_here (String a s)) as [[p' q']|] eqn:M.
  - intros [= -> ->]. apply match_here_inv in M as (c & d & H1 & H2 & H3 & H4 & H5 & H6 & H7). exists EmptyString, c, d. cbn [String.append].
    apply consists_decimal in H3. apply consists_doi in H6. repeat split; auto; lia.
  - intros H. destruct (IH H) as (r & c & d & H1 & H2 & H3 & H4 & H5 & H6 & H7). exists (String a r), c, d. repeat split; auto; try lia. destruct H7 as [-> | ->]; cbn; auto.
Qed.
(** The dot is not escaped in the regular expression: text without any DOI is accepted. *)
Theorem C45_dot_is_a_wildcard_refuted c d q : c <> newline -> consists_of decimal d -> 4 <= String.length d <= 9 -> q <> "" -> consists_of doi_chars q ->
  parse_doi (String "1" (String "0" (String c d)) ++ String slash q) = OK (String "1" (String "0" (String c d)), q) /\
  (c <> "."%char -> ~ exists q', doi_parts (String "1" (String "0" (String c d))) q').
Proof.
  intros Nc D L N Q. apply consists_decimal in D. apply consists_doi in Q. split.
  - assert (M : match_here (String "1" (String "0" (String c (d ++ String slash q)))) = Some (String "1" (String "0" (String c d)), q)).
    { cbn [match_here]. apply Ascii.eqb_neq in Nc. rewrite Nc. cbn [negb Ascii.eqb Bool.eqb andb]. rewrite (digits_slash_ok d q D).
      destruct (Nat.leb_spec 4 (String.length d)); [|lia]. destruct (Nat.leb_spec (String.length d) 9); [|lia]. cbn [andb]. unfold suffix. rewrite (suffix_tail_all q Q). destruct q; [congruence|reflexivity]. }
    cbn [String.append]. unfold parse_doi; fold parse_doi. rewrite M. reflexivity.
  - intros Hc (q' & (d' & E & _) & _). cbn in E. injection E as E _. congruence.
Qed.
(** text without "10" is rejected *)
Theorem C45_rejects s : no_ten s = true -> parse_doi s = Err ValueError.
Proof.
  induction s as [|a s IH]; [reflexivity|]. intros R. cbn [parse_doi]. destruct (match_here (String a s)) eqn:M.
  - exfalso. assert (N : match_here (String a s) <> None) by congruence. apply match_here_ten in N as [-> [s' ->]]. cbn in R. discriminate.
  - apply IH. cbn [no_ten] in R. apply andb_true_iff in R as [_ R]. exact R.
Qed.
(** Exactly the texts that do not end in such a prefix, slash and suffix are rejected. *)
Theorem C45_rejects_exactly s : parse_doi s = Err ValueError <->
  ~ exists r c d q, c <> newline /\ consists_of decimal d /\ 4 <= String.length d <= 9 /\ q <> "" /\ consists_of doi_chars q /\
      (s = (r ++ String "1" (String "0" (String c d)) ++ String slash q)%string \/ s = (r ++ String "1" (String "0" (String c d)) ++ String slash (q ++ String newline EmptyString))%string).
Proof.
  split.
  - intros H (r & c & d & q & Nc & D & L & N & Q & S). apply consists_decimal in D. apply consists_doi in Q.
    assert (M : forall z, suffix_tail z = Some q -> match_here (String "1" (String "0" (String c (d ++ String slash z)))) <> None).
    { intros z Z. cbn [match_here]. apply Ascii.eqb_neq in Nc. rewrite Nc. cbn [negb Ascii.eqb Bool.eqb andb]. rewrite (digits_slash_ok d z D).
      destruct (Nat.leb_spec 4 (String.length d)); [|lia]. destruct (Nat.leb_spec (String.length d) 9); [|lia]. cbn [andb]. unfold suffix. rewrite Z. destruct q; congruence. }
    assert (T : suffix_tail (q ++ String newline EmptyString) = Some q).
    { clear - Q. induction q as [|a q IH]; [reflexivity|]. cbn in Q. apply andb_true_iff in Q as [Qa Q]. cbn [String.append suffix_tail]. now rewrite Qa, IH. }
    assert (P : forall z, match_here z <> None -> forall r, exists x, parse_doi (r ++ z) = OK x).
    { clear. intros z M r. induction r as [|a r IH].
      - cbn [String.append]. destruct z; cbn [parse_doi]; destruct (match_here _); try congruence; eauto.
      - cbn [String.append]. cbn [parse_doi]. destruct (match_here (String a (r ++ z))); [eauto|exact IH]. }
    assert (exists x, parse_doi s = OK x) as [x E]; [|congruence].
    destruct S as [-> | ->]; apply P; cbn [String.append]; apply M; [now apply suffix_tail_all|exact T].
  - intros H. destruct (parse_doi s) as [[p q]|e] eqn:E.
    + exfalso. apply C45_result_is_in_the_text_partial in E as (r & c & d & H1 & -> & H3 & H4 & H5 & H6 & H7). apply H. exists r, c, d, q. auto 10.
    + clear H. induction s as [|a s IH]; cbn [parse_doi] in E; [exact (eq_sym E)|]. destruct (match_here (String a s)) as [x|]; [inversion E|exact (IH E)].
Qed.
(** The 4TU identifier is the suffix without its version. *)
Theorem C45_4tu_id r p id v : no_ten r = true -> doi_parts p (id ++ v) -> all_chars (fun a => negb (Ascii.eqb a ".")) id = true -> (v = "" \/ exists v', v = ("." ++ v')%string) ->
  get_4tu_id (r ++ p ++ String slash (id ++ v)) = OK id.
Proof.
  intros R D I V. unfold get_4tu_id. rewrite (C45_parses_dois r p (id ++ v) R D). cbn [bind snd]. f_equal. clear R D. induction id as [|a id IH].
  - destruct V as [->|[v' ->]]; reflexivity.
  - cbn in I. apply andb_true_iff in I as [Ia I]. cbn. destruct (Ascii.eqb a "."); [discriminate|]. now rewrite IH.
Qed.
Example C45_witness : no_ten "https://doi.org/" = true /\ doi_parts "10.4121" "f9572240-f179-4338-9e1b-82c5598529e2.v1" /\
  get_4tu_id "https://doi.org/10.4121/f9572240-f179-4338-9e1b-82c5598529e2.v1" = OK "f9572240-f179-4338-9e1b-82c5598529e2" /\ parse_doi "10x4121/abc" = OK ("10x4121", "abc").
Proof. split; [reflexivity|]. split; [split; [exists "4121"; split; [reflexivity|split; [reflexivity|cbn; lia]]|split; [discriminate|reflexivity]]|]. split; reflexivity. Qed.
