(** * JSON text and how PyYAML reads it
    config.py l.594-609 (to_string writes with json.dumps), l.506-521 (from_yaml reads with yaml.safe_load).
    Used for C107. *)
From Coq Require Import Arith Lia Bool List ZArith String Ascii DecimalString Decimal DecimalZ.
From Verif Require Import Num Arr Calendar.
Import ListNotations.
Local Open Scope Z_scope.
Local Open Scope string_scope.

(** ** Texts *)
(** a Python str: its code points *)
Definition text := list Z.
Definition code (a : ascii) : Z := Z.of_nat (nat_of_ascii a).
Definition chr (z : Z) : ascii := ascii_of_nat (Z.to_nat z).
Fixpoint of_string (s : string) : text := match s with EmptyString => [] | String a s => code a :: of_string s end.
(** the same text as a string, if all its characters are ASCII *)
Fixpoint to_ascii (u : text) : option string :=
  match u with
  | [] => Some ""
  | c :: u => if (Z.leb 0 c && Z.ltb c 128)%bool then match to_ascii u with Some s => Some (String (chr c) s) | None => None end else None
  end.

(** ** Model of json.dumps *)
(** what json.loads returns (l.606): floats are kept as the text that float.__repr__ gives *)
Inductive json := JNull | JBool (b : bool) | JInt (z : Z) | JFloat (repr : string) | JStr (u : text) | JList (l : list json) | JObj (m : list (string * json)).
Definition hex_digit (k : Z) : ascii := chr (if Z.ltb k 10 then 48 + k else 87 + k).
(** the format '\u{0:04x}' *)
Definition hex4 (n : Z) (r : string) : string :=
  String "\" (String "u" (String (hex_digit (n / 4096)) (String (hex_digit (n / 256 mod 16)) (String (hex_digit (n / 16 mod 16)) (String (hex_digit (n mod 16)) r))))).
(** json.encoder.py_encode_basestring_ascii (ensure_ascii is on), written in front of [r] *)
Definition print_char (c : Z) (r : string) : string :=
  if Z.eqb c 34 then String "\" (String """" r)
  else if Z.eqb c 92 then String "\" (String "\" r)
  else if Z.eqb c 10 then String "\" (String "n" r)
  else if Z.eqb c 13 then String "\" (String "r" r)
  else if Z.eqb c 9 then String "\" (String "t" r)
  else if Z.eqb c 12 then String "\" (String "f" r)
  else if Z.eqb c 8 then String "\" (String "b" r)
  else if (Z.leb 32 c && Z.leb c 126)%bool then String (chr c) r
  else if Z.ltb c 65536 then hex4 c r
  else hex4 (55296 + (c - 65536) / 1024) (hex4 (56320 + (c - 65536) mod 1024) r).
Fixpoint print_chars (u : text) (r : string) : string := match u with [] => r | c :: u => print_char c (print_chars u r) end.
Definition quoted (u : text) : string := String """" (print_chars u """").
Fixpoint print (v : json) : string :=
  match v with
  | JNull => "null"
  | JBool b => if b then "true" else "false"
  | JInt z => NilZero.string_of_int (Z.to_int z)
  | JFloat r => r
  | JStr u => quoted u
  | JList l => "[" ++ String.concat ", " (map print l) ++ "]"
  | JObj m => "{" ++ String.concat ", " (map (fun kv => quoted (of_string (fst kv)) ++ ": " ++ print (snd kv)) m) ++ "}"
  end.

(** ** Model of yaml.safe_load on such a text *)
(** what the loader returns; a float is kept as the text it is made from *)
Inductive yaml := YNull | YBool (b : bool) | YInt (z : Z) | YFloat (t : string) | YStr (u : text) | YList (l : list yaml) | YMap (m : list (text * yaml)).
Definition hex_val (a : ascii) : option Z :=
  let n := code a in
  if (Z.leb 48 n && Z.leb n 57)%bool then Some (n - 48)
  else if (Z.leb 97 n && Z.leb n 102)%bool then Some (n - 87)
  else if (Z.leb 65 n && Z.leb n 70)%bool then Some (n - 55) else None.
Definition first (c : Z) (r : option (text * string)) : option (text * string) := match r with Some (u, s) => Some (c :: u, s) | None => None end.
(** scanner.py, scan_flow_scalar_non_spaces: a double-quoted text after its opening quote.  An escape \uXXXX
    becomes the character with that number: two surrogates are not put together.  Of the escapes those that
    json.dumps writes; line breaks inside the quotes are left out. *)
Fixpoint double_quoted (s : string) : option (text * string) :=
  match s with
  | EmptyString => None
  | String a s =>
      if Ascii.eqb a """" then Some ([], s)
      else if Ascii.eqb a "\" then
        match s with
        | String b s =>
            if Ascii.eqb b """" then first 34 (double_quoted s)
            else if Ascii.eqb b "\" then first 92 (double_quoted s)
            else if Ascii.eqb b "n" then first 10 (double_quoted s)
            else if Ascii.eqb b "r" then first 13 (double_quoted s)
            else if Ascii.eqb b "t" then first 9 (double_quoted s)
            else if Ascii.eqb b "f" then first 12 (double_quoted s)
            else if Ascii.eqb b "b" then first 8 (double_quoted s)
            else if Ascii.eqb b "u" then
              match s with
              | String h1 (String h2 (String h3 (String h4 s))) =>
                  match hex_val h1, hex_val h2, hex_val h3, hex_val h4 with
                  | Some x1, Some x2, Some x3, Some x4 => first (((x1 * 16 + x2) * 16 + x3) * 16 + x4) (double_quoted s)
                  | _, _, _, _ => None
                  end
              | _ => None
              end
            else None
        | EmptyString => None
        end
      else first (code a) (double_quoted s)
  end.
(** a plain scalar inside brackets, up to the next indicator *)
Definition ends_plain (a : ascii) : bool := Ascii.eqb a "," || Ascii.eqb a "]" || Ascii.eqb a "}" || Ascii.eqb a " " || Ascii.eqb a ":".
Fixpoint plain (s : string) : string * string :=
  match s with
  | EmptyString => ("", "")
  | String a s' => if ends_plain a then ("", s) else let p := plain s' in (String a (fst p), snd p)
  end.
Definition is_dec (a : ascii) : bool := Z.leb 48 (code a) && Z.leb (code a) 57.
Fixpoint all_dec (s : string) : bool := match s with EmptyString => true | String a s => is_dec a && all_dec s end.
(** resolver.py, the pattern of floats: digits, a dot, digits, and then an exponent with a sign or nothing.  Without
    a dot it is no float: 1e-05 is a text. *)
Definition exponent (s : string) : bool :=
  match s with
  | EmptyString => true
  | String e (String sg (String d s)) => (Ascii.eqb e "e" || Ascii.eqb e "E") && (Ascii.eqb sg "+" || Ascii.eqb sg "-") && is_dec d && all_dec s
  | _ => false
  end.
Fixpoint fraction (s : string) : bool :=
  match s with String a s' => if is_dec a then fraction s' else exponent s | EmptyString => true end.
Fixpoint after_digits (s : string) : bool :=
  match s with String a s' => if is_dec a then after_digits s' else Ascii.eqb a "." && fraction s' | EmptyString => false end.
Definition float_pattern (s : string) : bool :=
  let unsigned s := match s with String a s' => is_dec a && after_digits s' | EmptyString => false end in
  match s with String a s' => if Ascii.eqb a "-" || Ascii.eqb a "+" then unsigned s' else unsigned s | EmptyString => false end.
(** resolver.py and constructor.py: which type a plain scalar has.  Of the words those that json.dumps writes. *)
Definition resolve (t : string) : yaml :=
  if String.eqb t "null" then YNull else if String.eqb t "true" then YBool true else if String.eqb t "false" then YBool false
  else match NilZero.int_of_string t with
       | Some d => YInt (Z.of_int d)
       | None => if float_pattern t then YFloat t else YStr (of_string t)
       end.
Fixpoint skip_spaces (s : string) : string := match s with String a s' => if Ascii.eqb a " " then skip_spaces s' else s | EmptyString => s end.
(** parser.py: a node in flow style; [fuel] is at least the number of nodes *)
Fixpoint node (fuel : nat) (s : string) : option (yaml * string) :=
  match fuel with
  | O => None
  | S fuel =>
      match s with
      | EmptyString => None
      | String a s1 =>
          if Ascii.eqb a """" then match double_quoted s1 with Some (u, r) => Some (YStr u, r) | None => None end
          else if Ascii.eqb a "[" then
            match skip_spaces s1 with
            | String b r => if Ascii.eqb b "]" then Some (YList [], r)
                            else match items fuel (String b r) with Some (l, r) => Some (YList l, r) | None => None end
            | EmptyString => None
            end
          else if Ascii.eqb a "{" then
            match skip_spaces s1 with
            | String b r => if Ascii.eqb b "}" then Some (YMap [], r)
                            else match members fuel (String b r) with Some (l, r) => Some (YMap l, r) | None => None end
            | EmptyString => None
            end
          else let p := plain s in Some (resolve (fst p), snd p)
      end
  end
with items (fuel : nat) (s : string) : option (list yaml * string) :=
  match fuel with
  | O => None
  | S fuel =>
      match node fuel s with
      | Some (v, r) =>
          match skip_spaces r with
          | String b r => if Ascii.eqb b "]" then Some ([v], r)
                          else if Ascii.eqb b "," then match items fuel (skip_spaces r) with Some (l, r) => Some (v :: l, r) | None => None end
                          else None
          | EmptyString => None
          end
      | None => None
      end
  end
with members (fuel : nat) (s : string) : option (list (text * yaml) * string) :=
  match fuel with
  | O => None
  | S fuel =>
      match s with
      | String q s =>
          if Ascii.eqb q """" then
            match double_quoted s with
            | Some (k, String c r) =>
                if Ascii.eqb c ":" then
                  match node fuel (skip_spaces r) with
                  | Some (v, r) =>
                      match skip_spaces r with
                      | String b r => if Ascii.eqb b "}" then Some ([(k, v)], r)
                                      else if Ascii.eqb b "," then match members fuel (skip_spaces r) with Some (l, r) => Some ((k, v) :: l, r) | None => None end
                                      else None
                      | EmptyString => None
                      end
                  | None => None
                  end
                else None
            | _ => None
            end
          else None
      | EmptyString => None
      end
  end.
(** the whole text is one node *)
Definition safe_load (s : string) : res yaml :=
  match node (S (String.length s)) (skip_spaces s) with
  | Some (v, r) => match skip_spaces r with EmptyString => OK v | _ => Err ValueError end
  | None => Err ValueError
  end.

(** ** Specification *)
(** characters beyond the basic plane as two surrogates *)
Definition surrogates (c : Z) : text := if Z.ltb c 65536 then [c] else [55296 + (c - 65536) / 1024; 56320 + (c - 65536) mod 1024].
Definition surrogated (u : text) : text := flat_map surrogates u.
(** the same value *)
Fixpoint as_yaml (v : json) : yaml :=
  match v with
  | JNull => YNull | JBool b => YBool b | JInt z => YInt z
  | JFloat r => if float_pattern r then YFloat r else YStr (of_string r)
  | JStr u => YStr (surrogated u)
  | JList l => YList (map as_yaml l)
  | JObj m => YMap (map (fun kv => (of_string (fst kv), as_yaml (snd kv))) m)
  end.
Definition unicode (c : Z) : Prop := 0 <= c < 1114112.
(** what float.__repr__ writes: digits with a sign, a dot or an exponent *)
Definition float_char (a : ascii) : bool := is_dec a || Ascii.eqb a "." || Ascii.eqb a "e" || Ascii.eqb a "+" || Ascii.eqb a "-".
Fixpoint all_float (s : string) : bool := match s with EmptyString => true | String a s => float_char a && all_float s end.
Fixpoint has_point (s : string) : bool := match s with EmptyString => false | String a s => Ascii.eqb a "." || Ascii.eqb a "e" || has_point s end.
Definition repr_text (r : string) : Prop := all_float r = true /\ has_point r = true.
Fixpoint ascii_text (s : string) : bool := match s with EmptyString => true | String a s => Z.ltb (code a) 128 && ascii_text s end.
Inductive printable : json -> Prop :=
| p_null : printable JNull
| p_bool b : printable (JBool b)
| p_int z : printable (JInt z)
| p_float r : repr_text r -> printable (JFloat r)
| p_str u : List.Forall unicode u -> printable (JStr u)
| p_list l : List.Forall printable l -> printable (JList l)
| p_obj m : List.Forall (fun kv => ascii_text (fst kv) = true /\ printable (snd kv)) m -> printable (JObj m).

(** ** Lemmas *)
Lemma json_ind' (P : json -> Prop) :
  P JNull -> (forall b, P (JBool b)) -> (forall z, P (JInt z)) -> (forall r, P (JFloat r)) -> (forall u, P (JStr u)) ->
  (forall l, List.Forall P l -> P (JList l)) -> (forall m, List.Forall (fun kv => P (snd kv)) m -> P (JObj m)) -> forall v, P v.
Proof.
  intros H1 H2 H3 H4 H5 H6 H7. fix IH 1. destruct v; [exact H1|apply H2|apply H3|apply H4|apply H5| |].
  - apply H6. revert l. fix IL 1. destruct l as [|v l]; constructor; [apply IH|apply IL].
  - apply H7. revert m. fix IL 1. destruct m as [|kv m]; constructor; [apply IH|apply IL].
Qed.
Lemma code_chr z : 0 <= z < 256 -> code (chr z) = z.
Proof. intros H. unfold code, chr. rewrite nat_ascii_embedding by lia. lia. Qed.
Lemma eqb_code a b : Ascii.eqb a b = Z.eqb (code a) (code b).
Proof.
  destruct (Ascii.eqb_spec a b) as [->|H]; [now rewrite Z.eqb_refl|]. symmetry. apply Z.eqb_neq. intros E. apply H. unfold code in E. apply Nat2Z.inj in E.
  now rewrite <- (ascii_nat_embedding a), <- (ascii_nat_embedding b), E.
Qed.
Lemma hex_val_digit k : 0 <= k < 16 -> hex_val (hex_digit k) = Some k.
Proof.
  intros H. unfold hex_val, hex_digit. rewrite code_chr by (destruct (Z.ltb_spec k 10); lia).
  destruct (Z.ltb_spec k 10).
  - destruct (Z.leb_spec 48 (48 + k)); [|lia]. destruct (Z.leb_spec (48 + k) 57); [|lia]. cbn [andb]. f_equal. lia.
  - destruct (Z.leb_spec 48 (87 + k)); [|lia]. destruct (Z.leb_spec (87 + k) 57); [lia|]. cbn [andb]. destruct (Z.leb_spec 97 (87 + k)); [|lia].
    destruct (Z.leb_spec (87 + k) 102); [|lia]. cbn [andb]. f_equal. lia.
Qed.
Lemma hex4_read n r : 0 <= n < 65536 -> double_quoted (hex4 n r) = first n (double_quoted r).
Proof.
  intros H. unfold hex4. cbn [double_quoted]. change (Ascii.eqb "\" """") with false. change (Ascii.eqb "\" "\") with true. cbv iota.
  change (Ascii.eqb "u" """") with false. change (Ascii.eqb "u" "\") with false. change (Ascii.eqb "u" "n") with false. change (Ascii.eqb "u" "r") with false.
  change (Ascii.eqb "u" "t") with false. change (Ascii.eqb "u" "f") with false. change (Ascii.eqb "u" "b") with false. change (Ascii.eqb "u" "u") with true. cbv iota.
  rewrite !hex_val_digit.
  - f_equal. pose proof (Z.div_mod n 16 ltac:(lia)). pose proof (Z.div_mod (n / 16) 16 ltac:(lia)). pose proof (Z.div_mod (n / 256) 16 ltac:(lia)).
    rewrite Z.div_div in * by lia. change (16 * 16) with 256 in *. change (256 * 16) with 4096 in *. lia.
  - apply Z.mod_pos_bound. lia.
  - apply Z.mod_pos_bound. lia.
  - apply Z.mod_pos_bound. lia.
  - split; [apply Z.div_pos; lia|apply Z.div_lt_upper_bound; lia].
Qed.
Lemma char_read c r : unicode c -> double_quoted (print_char c r) = match double_quoted r with Some (u, s) => Some (surrogates c ++ u, s)%list | None => None end.
Proof.
  unfold unicode, print_char, surrogates. intros H.
  destruct (Z.eqb_spec c 34) as [->|N1]; [cbn; now destruct (double_quoted r) as [[u s]|]|].
  destruct (Z.eqb_spec c 92) as [->|N2]; [cbn; now destruct (double_quoted r) as [[u s]|]|].
  destruct (Z.eqb_spec c 10) as [->|N3]; [cbn; now destruct (double_quoted r) as [[u s]|]|].
  destruct (Z.eqb_spec c 13) as [->|N4]; [cbn; now destruct (double_quoted r) as [[u s]|]|].
  destruct (Z.eqb_spec c 9) as [->|N5]; [cbn; now destruct (double_quoted r) as [[u s]|]|].
  destruct (Z.eqb_spec c 12) as [->|N6]; [cbn; now destruct (double_quoted r) as [[u s]|]|].
  destruct (Z.eqb_spec c 8) as [->|N7]; [cbn; now destruct (double_quoted r) as [[u s]|]|].
  destruct (Z.leb_spec 32 c); destruct (Z.leb_spec c 126); cbn [andb].
  - cbn [double_quoted]. rewrite !eqb_code, code_chr by lia. change (code """") with 34. change (code "\") with 92.
    destruct (Z.eqb_spec c 34); [lia|]. destruct (Z.eqb_spec c 92); [lia|]. destruct (Z.ltb_spec c 65536); [|lia]. unfold first. destruct (double_quoted r) as [[u s]|]; reflexivity.
  - destruct (Z.ltb_spec c 65536).
    + rewrite hex4_read by lia. unfold first. destruct (double_quoted r) as [[u s]|]; reflexivity.
    + pose proof (Z.mod_pos_bound (c - 65536) 1024 ltac:(lia)). assert (0 <= (c - 65536) / 1024 < 1024) by (split; [apply Z.div_pos; lia|apply Z.div_lt_upper_bound; lia]).
      rewrite !hex4_read by lia. unfold first. destruct (double_quoted r) as [[u s]|]; reflexivity.
  - destruct (Z.ltb_spec c 65536); [|lia]. rewrite hex4_read by lia. unfold first. destruct (double_quoted r) as [[u s]|]; reflexivity.
  - lia.
Qed.
Lemma chars_read u r : List.Forall unicode u -> double_quoted (print_chars u r) = match double_quoted r with Some (v, s) => Some (surrogated u ++ v, s)%list | None => None end.
Proof.
  induction 1 as [|c u Hc _ IH]; cbn [print_chars surrogated flat_map List.app].
  - destruct (double_quoted r) as [[v s]|]; reflexivity.
  - rewrite char_read, IH by assumption. destruct (double_quoted r) as [[v s]|]; [|reflexivity]. f_equal. f_equal. rewrite <- app_assoc. reflexivity.
Qed.
Lemma hex4_app n r s : hex4 n r ++ s = hex4 n (r ++ s). Proof. reflexivity. Qed.
Lemma print_char_app c r s : print_char c r ++ s = print_char c (r ++ s).
Proof. unfold print_char. repeat match goal with |- context [if ?b then _ else _] => destruct b end; reflexivity. Qed.
Lemma print_chars_app u r s : print_chars u r ++ s = print_chars u (r ++ s).
Proof. induction u as [|c u IH]; cbn [print_chars]; [reflexivity|]. now rewrite print_char_app, IH. Qed.
Lemma quoted_read u r : List.Forall unicode u -> exists s, quoted u ++ r = String """" s /\ double_quoted s = Some (surrogated u, r).
Proof.
  intros H. unfold quoted. eexists. split; [reflexivity|]. change ((print_chars u """" ++ r)) with (print_chars u """" ++ r). rewrite print_chars_app, chars_read by assumption.
  cbn. now rewrite app_nil_r.
Qed.
Lemma code_range a : 0 <= code a < 256.
Proof. unfold code. pose proof (nat_ascii_bounded a). lia. Qed.
Lemma unicode_ascii s : List.Forall unicode (of_string s).
Proof. induction s as [|a s IH]; constructor; [|assumption]. pose proof (code_range a). unfold unicode. lia. Qed.
Lemma surrogated_bmp u : List.Forall (fun c => c < 65536) u -> surrogated u = u.
Proof. induction 1 as [|c u Hc _ IH]; [reflexivity|]. cbn [surrogated flat_map]. fold (surrogated u). rewrite IH. unfold surrogates. now destruct (Z.ltb_spec c 65536); [|lia]. Qed.
Lemma surrogated_ascii s : surrogated (of_string s) = of_string s.
Proof. apply surrogated_bmp. induction s as [|a s IH]; constructor; [|assumption]. pose proof (code_range a). lia. Qed.

(** plain scalars *)
Definition stops (r : string) : bool := match r with EmptyString => true | String a _ => ends_plain a end.
Fixpoint no_stop (s : string) : bool := match s with EmptyString => true | String a s => negb (ends_plain a) && no_stop s end.
Lemma plain_app t r : no_stop t = true -> stops r = true -> plain (t ++ r) = (t, r).
Proof.
  intros Ht Hr. induction t as [|a t IH]; cbn [no_stop append plain] in *.
  - destruct r as [|b r]; [reflexivity|]. cbn [stops plain] in *. now rewrite Hr.
  - apply andb_true_iff in Ht. destruct Ht as [Ha Ht]. apply negb_true_iff in Ha. rewrite Ha, IH by assumption. reflexivity.
Qed.
Lemma uint_chars d : no_stop (NilEmpty.string_of_uint d) = true.
Proof. induction d; cbn [NilEmpty.string_of_uint no_stop]; try reflexivity; rewrite IHd; reflexivity. Qed.
Lemma int_chars d : no_stop (NilZero.string_of_int d) = true.
Proof.
  assert (U : forall u, no_stop (NilZero.string_of_uint u) = true) by (intros u; destruct u; try reflexivity; apply uint_chars).
  destruct d; cbn [NilZero.string_of_int no_stop]; rewrite U; reflexivity.
Qed.
Definition starts (a : ascii) : bool := is_dec a || Ascii.eqb a "-".
Lemma int_start d : exists a s, NilZero.string_of_int d = String a s /\ starts a = true.
Proof.
  assert (U : forall u, exists a s, NilZero.string_of_uint u = String a s /\ starts a = true).
  { intros u. destruct u; cbn; eauto. all: eexists _, _; split; reflexivity. }
  destruct d as [u|u]; cbn [NilZero.string_of_int]; [apply U|]. eexists _, _. split; reflexivity.
Qed.
Lemma resolve_int z : resolve (NilZero.string_of_int (Z.to_int z)) = YInt z.
Proof.
  destruct (int_start (Z.to_int z)) as (a & s & E & Ha). unfold resolve. rewrite E.
  assert (N : forall w b, starts b = false -> String.eqb (String a s) (String b w) = false).
  { intros w b Hb. cbn. destruct (Ascii.eqb_spec a b) as [->|_]; [congruence|reflexivity]. }
  rewrite !N by reflexivity. rewrite <- E. rewrite NilZero.isi.
  - now rewrite DecimalZ.of_to.
  - destruct z; cbn; try discriminate. intros H. assert (Pos.to_uint p = Nil) as E2 by congruence. apply (f_equal Z.of_uint) in E2. 
    pose proof (DecimalZ.of_to (Zpos p)) as O. cbn [Z.to_int Z.of_int] in O. rewrite E2 in O. discriminate.
  - destruct z; cbn; try discriminate. intros H. assert (Pos.to_uint p = Nil) as E2 by congruence. apply (f_equal Z.of_uint) in E2. 
    pose proof (DecimalZ.of_to (Zpos p)) as O. cbn [Z.to_int Z.of_int] in O. rewrite E2 in O. discriminate.
Qed.
Lemma uint_no_point s : has_point s = true -> NilEmpty.uint_of_string s = None.
Proof.
  induction s as [|a s IH]; [discriminate|]. cbn [has_point NilEmpty.uint_of_string]. intros H.
  destruct (Ascii.eqb_spec a ".") as [->|_]; [now destruct (NilEmpty.uint_of_string s)|]. destruct (Ascii.eqb_spec a "e") as [->|_]; [now destruct (NilEmpty.uint_of_string s)|].
  cbn [orb] in H. rewrite IH by assumption. destruct a as [b0 b1 b2 b3 b4 b5 b6 b7]; destruct b0, b1, b2, b3, b4, b5, b6, b7; reflexivity.
Qed.
Lemma int_no_point s : has_point s = true -> NilZero.int_of_string s = None.
Proof.
  intros H. destruct s as [|a s]; [discriminate|]. unfold NilZero.int_of_string. destruct (Ascii.eqb_spec a "-") as [->|_].
  - cbn in H. unfold NilZero.uint_of_string. destruct s as [|b s]; [discriminate|]. now rewrite uint_no_point.
  - unfold NilZero.uint_of_string. now rewrite uint_no_point.
Qed.
Lemma resolve_float r : repr_text r -> resolve r = as_yaml (JFloat r).
Proof.
  intros [A P]. unfold resolve. cbn [as_yaml]. rewrite (int_no_point r P).
  assert (N : forall w, all_float w = false -> String.eqb r w = false) by (intros w Hw; destruct (String.eqb_spec r w) as [->|_]; [congruence|reflexivity]).
  now rewrite !N by reflexivity.
Qed.
Lemma float_chars r : all_float r = true -> no_stop r = true.
Proof.
  induction r as [|a r IH]; [reflexivity|]. cbn [all_float no_stop]. intros H. apply andb_true_iff in H. destruct H as [Ha Hr]. rewrite IH by assumption. rewrite andb_true_r.
  destruct a as [b0 b1 b2 b3 b4 b5 b6 b7]; destruct b0, b1, b2, b3, b4, b5, b6, b7; try reflexivity; discriminate Ha.
Qed.
Definition opens (a : ascii) : bool := starts a || Ascii.eqb a """" || Ascii.eqb a "[" || Ascii.eqb a "{" || Ascii.eqb a "n" || Ascii.eqb a "t" || Ascii.eqb a "f" || float_char a.
Lemma print_opens v : printable v -> exists a s, print v = String a s /\ opens a = true.
Proof.
  intros H. destruct H; cbn [print].
  - eexists _, _. split; reflexivity.
  - destruct b; eexists _, _; split; reflexivity.
  - destruct (int_start (Z.to_int z)) as (a & s & E & Ha). exists a, s. split; [assumption|]. unfold opens. now rewrite Ha.
  - destruct H as [A P]. destruct r as [|a r]; [discriminate|]. exists a, r. split; [reflexivity|]. cbn in A. apply andb_true_iff in A. destruct A as [A _]. unfold opens. rewrite A. apply orb_true_r.
  - eexists _, _. split; reflexivity.
  - eexists _, _. split; reflexivity.
  - eexists _, _. split; reflexivity.
Qed.
Lemma opens_not a b : opens a = true -> opens b = false -> Ascii.eqb a b = false.
Proof. intros H1 H2. destruct (Ascii.eqb_spec a b) as [->|_]; [congruence|reflexivity]. Qed.
Lemma skip_opens a s : opens a = true -> skip_spaces (String a s) = String a s.
Proof. intros H. cbn [skip_spaces]. now rewrite (opens_not a " ") by (assumption || reflexivity). Qed.
Lemma length_app s t : String.length (s ++ t) = (String.length s + String.length t)%nat.
Proof. induction s; cbn; [reflexivity|]. now rewrite IHs. Qed.
Lemma node_plain t r f : no_stop t = true -> stops r = true -> t <> "" ->
  (exists a s, t = String a s /\ Ascii.eqb a """" = false /\ Ascii.eqb a "[" = false /\ Ascii.eqb a "{" = false) -> node (S f) (t ++ r) = Some (resolve t, r).
Proof.
  intros Ht Hr _ (a & s & E & H1 & H2 & H3). pose proof (plain_app t r Ht Hr) as P. subst t. cbn [append] in *. cbn [node]. rewrite H1, H2, H3. now rewrite P.
Qed.
(** the texts between the brackets *)
Lemma concat_cons (x : string) l : l <> [] -> String.concat ", " (x :: l) = x ++ ", " ++ String.concat ", " l.
Proof. destruct l; [congruence|reflexivity]. Qed.
Lemma str_assoc (a b c : string) : (a ++ b) ++ c = a ++ (b ++ c).
Proof. induction a; cbn; [reflexivity|]. now rewrite IHa. Qed.
Definition reads v := forall f r, (String.length (print v) <= f)%nat -> stops r = true -> node f (print v ++ r) = Some (as_yaml v, r).
Lemma items_read l : l <> [] -> List.Forall reads l -> List.Forall printable l ->
  forall f r, (String.length (String.concat ", " (map print l)) + 1 <= f)%nat -> items f (String.concat ", " (map print l) ++ "]" ++ r) = Some (map as_yaml l, r).
Proof.
  induction l as [|v l IH]; [congruence|]. intros _ HR HP f r Hf. inversion HR as [|? ? Rv Rl]; subst. inversion HP as [|? ? Pv Pl]; subst.
  destruct f as [|f]; [lia|]. destruct l as [|w l].
  - cbn [map String.concat] in *. change (items (S f)) with (fun s => match node f s with
      | Some (v, r) => match skip_spaces r with
          | String b r => if Ascii.eqb b "]" then Some ([v], r) else if Ascii.eqb b "," then match items f (skip_spaces r) with Some (l, r) => Some (v :: l, r) | None => None end else None
          | EmptyString => None end | None => None end). cbv beta. rewrite Rv; [reflexivity|lia|reflexivity].
  - cbn [map] in *. rewrite concat_cons in * by discriminate. rewrite !length_app in Hf. cbn [String.length] in Hf. rewrite !str_assoc.
    change (items (S f)) with (fun s => match node f s with
      | Some (v, r) => match skip_spaces r with
          | String b r => if Ascii.eqb b "]" then Some ([v], r) else if Ascii.eqb b "," then match items f (skip_spaces r) with Some (l, r) => Some (v :: l, r) | None => None end else None
          | EmptyString => None end | None => None end). cbv beta. rewrite Rv; [|lia|reflexivity].
    cbn [append]. change (skip_spaces (String "," ?x)) with (String "," x). cbv iota. change (Ascii.eqb "," "]") with false. change (Ascii.eqb "," ",") with true. cbv iota.
    change (skip_spaces (String " " ?x)) with (skip_spaces x).
    assert (E : exists a s, String.concat ", " (print w :: map print l) ++ String "]" r = String a s /\ opens a = true).
    { inversion Pl as [|? ? Pw _]; subst. destruct (print_opens w Pw) as (a & s & E & Ha). destruct l; cbn [map String.concat]; rewrite E; cbn [append]; eauto. }
    destruct E as (a & s & E & Ha). rewrite E, skip_opens by assumption. rewrite <- E. change (String "]" r) with ("]" ++ r). rewrite IH; [reflexivity|discriminate|assumption|assumption|]. cbn [map]. lia.
Qed.
Definition pair_text (kv : string * json) : string := quoted (of_string (fst kv)) ++ ": " ++ print (snd kv).
Lemma members_read m : m <> [] -> List.Forall (fun kv => reads (snd kv)) m -> List.Forall (fun kv => printable (snd kv)) m ->
  forall f r, (String.length (String.concat ", " (map pair_text m)) + 1 <= f)%nat ->
  members f (String.concat ", " (map pair_text m) ++ "}" ++ r) = Some (map (fun kv => (of_string (fst kv), as_yaml (snd kv))) m, r).
Proof.
  induction m as [|[k v] m IH]; [congruence|]. intros _ HR HP f r Hf. inversion HR as [|? ? Rv Rl]; subst. inversion HP as [|? ? Pv Pl]; subst. cbn [snd] in Rv, Pv.
  destruct f as [|f]; [lia|].
  assert (M : forall tail y, (exists b, tail = String b y /\ (b = "}"%char \/ b = ","%char)) -> (String.length (print v) <= f)%nat ->
    members (S f) (pair_text (k, v) ++ tail) = match tail with
       | String b r => if Ascii.eqb b "}" then Some ([(of_string k, as_yaml v)], r)
            else if Ascii.eqb b "," then match members f (skip_spaces r) with Some (l, r) => Some ((of_string k, as_yaml v) :: l, r) | None => None end else None
       | EmptyString => None end).
  { intros tail y (b & -> & Hb) L. unfold pair_text. cbn [fst snd]. rewrite !str_assoc. destruct (quoted_read (of_string k) (": " ++ print v ++ String b y) (unicode_ascii k)) as (s & E & D).
    rewrite E. cbn [members]. rewrite D. change (Ascii.eqb """" """") with true. cbv iota. cbn [append]. change (Ascii.eqb ":" ":") with true. cbv iota.
    change (skip_spaces (String " " ?x)) with (skip_spaces x). destruct (print_opens v Pv) as (a & s' & Ev & Ha). rewrite Ev. cbn [append]. rewrite skip_opens by assumption.
    change (String a (s' ++ String b y)) with (String a s' ++ String b y). rewrite <- Ev. rewrite Rv; [|assumption|now destruct Hb; subst b].
    rewrite surrogated_ascii. destruct Hb; subst b; reflexivity. }
  assert (Lv : (String.length (print v) <= String.length (pair_text (k, v)))%nat) by (unfold pair_text; rewrite !length_app; cbn [snd]; lia).
  destruct m as [|w m].
  - cbn [map String.concat] in *. rewrite (M ("}" ++ r) r); [reflexivity|eexists; split; [reflexivity|now left]|lia].
  - cbn [map] in *. rewrite concat_cons in * by discriminate. rewrite !length_app in Hf. cbn [String.length] in Hf. rewrite !str_assoc. 
    rewrite (M (", " ++ (String.concat ", " (pair_text w :: map pair_text m)) ++ "}" ++ r) (String " " ((String.concat ", " (pair_text w :: map pair_text m)) ++ "}" ++ r)));
      [|eexists; split; [reflexivity|now right]|lia].
    cbn [append]. change (Ascii.eqb "," "}") with false. change (Ascii.eqb "," ",") with true. cbv iota. change (skip_spaces (String " " ?x)) with (skip_spaces x).
    assert (E : exists a s, String.concat ", " (pair_text w :: map pair_text m) ++ String "}" r = String a s /\ opens a = true).
    { destruct m; cbn [map String.concat]; unfold pair_text, quoted; cbn [append]; eauto. }
    destruct E as (a & s & E & Ha). rewrite E, skip_opens by assumption. rewrite <- E. change (String "}" r) with ("}" ++ r). rewrite IH; [reflexivity|discriminate|assumption|assumption|]. cbn [map]. lia.
Qed.
Lemma node_print v : printable v -> reads v.
Proof.
  induction v as [|b|z|r0|u|l IH|m IH] using json_ind'; intros HP f r Hf Hr; destruct f as [|f]; try (cbn in Hf; lia).
  - cbn [print as_yaml]. rewrite (node_plain "null" r f); [reflexivity|reflexivity|assumption|discriminate|eexists _, _; repeat split; reflexivity].
  - destruct b; cbn in Hf; lia.
  - cbn [print as_yaml]. destruct b.
    + rewrite (node_plain "true" r f); [reflexivity|reflexivity|assumption|discriminate|eexists _, _; repeat split; reflexivity].
    + rewrite (node_plain "false" r f); [reflexivity|reflexivity|assumption|discriminate|eexists _, _; repeat split; reflexivity].
  - exfalso. cbn in Hf. destruct (int_start (Z.to_int z)) as (a & s & E & _). rewrite E in Hf. cbn in Hf. lia.
  - cbn [print as_yaml]. destruct (int_start (Z.to_int z)) as (a & s & E & Ha). rewrite node_plain; [now rewrite resolve_int|apply int_chars|assumption|now rewrite E|].
    exists a, s. split; [assumption|]. repeat split; (destruct (Ascii.eqb a _) eqn:Q; [apply Ascii.eqb_eq in Q; subst a; discriminate|reflexivity]).
  - exfalso. inversion HP as [| | |? [_ P]| | |]; subst. destruct r0; [discriminate|cbn in Hf; lia].
  - inversion HP as [| | |? RT| | |]; subst. cbn [print]. rewrite node_plain; [now rewrite resolve_float|apply float_chars, RT|assumption|destruct RT as [_ P]; destruct r0; discriminate|].
    destruct RT as [A P]. destruct r0 as [|a s]; [discriminate|]. exists a, s. split; [reflexivity|]. cbn in A. apply andb_true_iff in A. destruct A as [A _].
    repeat split; (destruct (Ascii.eqb a _) eqn:Q; [apply Ascii.eqb_eq in Q; subst a; discriminate|reflexivity]).
  - inversion HP as [| | | |? HU| |]; subst. cbn [print as_yaml]. destruct (quoted_read u r HU) as (s & E & D). rewrite E. cbn [node]. change (Ascii.eqb """" """") with true. cbv iota. now rewrite D.
  - inversion HP as [| | | | |? HL|]; subst. cbn [print as_yaml] in *. rewrite !length_app in Hf. cbn [String.length] in Hf. rewrite !str_assoc. cbn [append node].
    change (Ascii.eqb "[" """") with false. change (Ascii.eqb "[" "[") with true. cbv iota. destruct l as [|v l]; [reflexivity|].
    assert (E : exists a s, String.concat ", " (map print (v :: l)) ++ String "]" r = String a s /\ opens a = true).
    { inversion HL as [|? ? Pw _]; subst. destruct (print_opens v Pw) as (a & s & E & Ha). destruct l; cbn [map String.concat]; rewrite E; cbn [append]; eauto. }
    destruct E as (a & s & E & Ha). rewrite E, skip_opens by assumption. rewrite (opens_not a "]") by (assumption || reflexivity). rewrite <- E. change (String "]" r) with ("]" ++ r).
    rewrite items_read; [reflexivity|discriminate| |assumption|lia]. rewrite List.Forall_forall in *. intros x Hx. apply IH; auto.
  - inversion HP as [| | | | | |? HM]; subst. change (print (JObj m)) with ("{" ++ String.concat ", " (map pair_text m) ++ "}") in *. cbn [as_yaml]. rewrite !length_app in Hf. cbn [String.length] in Hf. rewrite !str_assoc. cbn [append node].
    change (Ascii.eqb "{" """") with false. change (Ascii.eqb "{" "[") with false. change (Ascii.eqb "{" "{") with true. cbv iota. destruct m as [|v m]; [reflexivity|].
    assert (E : exists a s, String.concat ", " (map pair_text (v :: m)) ++ String "}" r = String a s /\ opens a = true).
    { destruct m; cbn [map String.concat]; unfold pair_text, quoted; cbn [append]; eauto. }
    destruct E as (a & s & E & Ha). rewrite E, skip_opens by assumption. rewrite (opens_not a "}") by (assumption || reflexivity). rewrite <- E. change (String "}" r) with ("}" ++ r).
    rewrite members_read; [reflexivity|discriminate| | |lia].
    + rewrite List.Forall_forall in *. intros x Hx. apply IH; [assumption|]. now apply HM.
    + rewrite List.Forall_forall in *. intros x Hx. now apply HM.
Qed.

Lemma app_empty s : s ++ "" = s.
Proof. induction s; cbn; [reflexivity|]. now rewrite IHs. Qed.
(** Every value comes back as it was written, but for characters beyond the basic plane, which become two. *)
Theorem C107_yaml_reads_json v : printable v -> safe_load (print v) = OK (as_yaml v).
Proof.
  intros H. unfold safe_load. destruct (print_opens v H) as (a & s & E & Ha).
  assert (N : node (S (String.length (print v))) (print v) = Some (as_yaml v, "")).
  { pose proof (node_print v H (S (String.length (print v))) "" ltac:(lia) eq_refl) as Q. rewrite app_empty in Q. exact Q. }
  rewrite E in *. rewrite skip_opens by assumption. rewrite N. reflexivity.
Qed.
Example C107_json_case : let v := JObj [("kvf", JFloat "3.0"); ("a", JList [JInt (-12); JNull; JBool true; JFloat "1e-05"; JStr (233 :: 128512 :: 10 :: of_string "x""\")])] in
  printable v /\ print v = "{""kvf"": 3.0, ""a"": [-12, null, true, 1e-05, ""\u00e9\ud83d\ude00\nx\""\\""]}" /\
  safe_load (print v) = OK (YMap [(of_string "kvf", YFloat "3.0"); (of_string "a", YList [YInt (-12); YNull; YBool true; YStr (of_string "1e-05"); YStr (233 :: 55357 :: 56832 :: 10 :: of_string "x""\")])]).
Proof.
  cbn zeta. split; [|split; reflexivity].
  constructor. repeat (apply List.Forall_cons; [split; [reflexivity|cbn [snd]]|]); [| |apply List.Forall_nil].
  - constructor. split; reflexivity.
  - apply p_list. apply List.Forall_cons; [apply p_int|]. apply List.Forall_cons; [apply p_null|]. apply List.Forall_cons; [apply p_bool|].
    apply List.Forall_cons; [apply p_float; split; reflexivity|]. apply List.Forall_cons; [apply p_str|apply List.Forall_nil].
    change (233 :: 128512 :: 10 :: of_string "x""\") with (233 :: 128512 :: 10 :: 120 :: 34 :: 92 :: []). repeat constructor; unfold unicode; try lia; discriminate.
Qed.
