(** * C97-C99: downloading example data (download.py, cli.py l.292-306, example_cases.py) *)
From Coq Require Import Arith Lia Bool List String Ascii.
From Verif Require Import Num Arr Strings.
Import ListNotations.
Local Open Scope string_scope.
Local Open Scope list_scope.
Local Open Scope nat_scope.

(** ** Model: files *)
(** A place in the file system: the names of the directories from the root on, and of the file.  No links. *)
Definition place := list string.
Inductive entry := Dir | File (bytes : string).
Definition files := place -> option entry.
Definition put (p : place) (e : entry) (f : files) : files := fun q => if list_eq_dec string_dec q p then Some e else f q.
(** str.split("/") *)
Fixpoint split_slash (s : string) : list string :=
  match s with
  | EmptyString => [EmptyString]
  | String a s => let l := split_slash s in
      if Ascii.eqb a slash then EmptyString :: l else match l with x :: l => String a x :: l | [] => [String a EmptyString] end
  end.
(** Path / text, as the operating system resolves it (every directory on the way is taken to exist) *)
Definition enter (p : place) (c : string) : place := if String.eqb c "" || String.eqb c "." then p else if String.eqb c ".." then removelast p else p ++ [c].
Definition join (p : place) (s : string) : place :=
  fold_left enter (split_slash s) (match s with String a _ => if Ascii.eqb a slash then [] else p | EmptyString => p end).

(** ** Model: errors and the servers *)
Inductive failure := FileExists | NoPlace | HTTPError | NoConnection | UnboundLocal | NotImplemented | Python (e : exn).
(** An answer to a GET request: the status, the resource, the Content-Encoding that the server uses (requests offers
    gzip and deflate), and where the connection breaks, if it does. *)
Record response := mkresponse { r_status : nat; r_body : string; r_coding : option (string -> string); r_cut : option nat }.
(** what arrives, undecoded: r.raw *)
Definition r_raw (r : response) : string := match r_coding r with Some c => c (r_body r) | None => r_body r end.
Record article := mkarticle { a_fields : option (list (string * list string)); a_files : option (list (string * string)) }.
(** [n_get]: the file servers; [n_api k id]: the answer of the 4TU API to the first and second (k = 0, 1) request for a
    data set, with its status and its JSON, if it is JSON; [n_thredds]: the file urls that threddsclient finds *)
Record net := mknet { n_get : string -> option response; n_api : nat -> string -> option (nat * option article); n_thredds : string -> option (list string) }.

(** ** Model: the functions *)
(** l.46-60: create_target_directory *)
Definition create_target_directory (f : files) (p : place) : files * option failure :=
  match f p with
  | Some _ => (f, Some FileExists)
  | None => match f (removelast p) with Some Dir => (put p Dir f, None) | _ => (f, Some NoPlace) end
  end.
(** open(path, "wb") *)
Definition can_open (f : files) (p : place) : bool :=
  match f p with Some Dir => false | _ => match f (removelast p) with Some Dir => true | _ => false end end.
(** l.63-73: download *)
Definition download (w : net) (f : files) (url : string) (destination : place) (filename : option string) : files * option failure :=
  let path := join destination (match filename with Some n => n | None => last (split_slash url) "" end) in
  match n_get w url with
  | None => (f, Some NoConnection)
  | Some r => if can_open f path then
                match r_cut r with
                | None => (put path (File (r_raw r)) f, None)
                | Some k => (put path (File (substring 0 k (r_raw r))) f, Some NoConnection)
                end
              else (f, Some NoPlace)
  end.
(** the loops of l.144-146 and l.150-151 *)
Fixpoint download_all (w : net) (f : files) (destination : place) (l : list (option string * string)) : files * option failure :=
  match l with
  | [] => (f, None)
  | (filename, url) :: l => match download w f url destination filename with
                            | (f, None) => download_all w f destination l
                            | r => r
                            end
  end.
(** requests.get(...), raise_for_status, json (l.99-101, l.117-119) *)
Definition api (w : net) (k : nat) (id : string) : article + failure :=
  match n_api w k id with
  | None => inr NoConnection
  | Some (status, json) => if (400 <=? status) && (status <? 600) then inr HTTPError else match json with Some a => inl a | None => inr (Python ValueError) end
  end.
(** l.103-105 *)
Fixpoint data_link (l : list (string * list string)) (found : option string) : option string + failure :=
  match l with
  | [] => inl found
  | (name, value) :: l => if String.eqb name "Data Link" then match value with v :: _ => data_link l (Some v) | [] => inr (Python IndexError) end
                          else data_link l found
  end.
(** str.replace(".html", ".xml"); [skip]: characters of the text found that are still to be passed over *)
Fixpoint html_to_xml (skip : nat) (s : string) : string :=
  match s with
  | EmptyString => EmptyString
  | String a s' => match skip with
                   | S k => html_to_xml k s'
                   | O => if prefix ".html" s then (".xml" ++ html_to_xml 4 s')%string else String a (html_to_xml 0 s')
                   end
  end.
(** l.91-108: get_4tu_catalog *)
Definition get_4tu_catalog (w : net) (id : string) : string + failure :=
  match api w 0 id with
  | inr e => inr e
  | inl a => match a_fields a with
             | None => inr (Python KeyError)
             | Some l => match data_link l None with
                         | inr e => inr e
                         | inl None => inr UnboundLocal
                         | inl (Some u) => inl (html_to_xml 0 u)
                         end
             end
  end.
(** l.121-127: a dictionary; the same name again replaces the url *)
Fixpoint dict_set (l : list (string * string)) (n u : string) : list (string * string) :=
  match l with [] => [(n, u)] | (m, v) :: l => if String.eqb m n then (n, u) :: l else (m, v) :: dict_set l n u end.
Definition get_4tu_files (w : net) (id : string) : list (string * string) + failure :=
  match api w 1 id with
  | inr e => inr e
  | inl a => match a_files a with None => inr (Python KeyError) | Some l => inl (fold_left (fun d nu => dict_set d (fst nu) (snd nu)) l []) end
  end.
(** l.130-151: download_from_4tu *)
Definition download_from_4tu (w : net) (f : files) (cwd : place) (doi name : string) : files * option failure :=
  let target := join cwd name in
  match create_target_directory f target with
  | (f, None) =>
      match get_4tu_id doi with
      | Err e => (f, Some (Python e))
      | OK id => match get_4tu_catalog w id with
                 | inr e => (f, Some e)
                 | inl catalog => match n_thredds w catalog with
                   | None => (f, Some NoConnection)
                   | Some urls => match download_all w f target (map (fun u => (None, u)) urls) with
                     | (f, None) => match get_4tu_files w id with
                                    | inr e => (f, Some e)
                                    | inl d => download_all w f target (map (fun nu => (Some (fst nu), snd nu)) d)
                                    end
                     | r => r end
                   end
                 end
      end
  | r => r
  end.
(** l.154-170: download_from_doi *)
Definition download_from_doi (w : net) (f : files) (cwd : place) (doi name : string) : files * option failure :=
  match parse_doi doi with
  | Err e => (f, Some (Python e))
  | OK (p, _) => if String.eqb p "10.4121" then download_from_4tu w f cwd doi name
                 else if String.eqb p "10.5281" then (f, Some NotImplemented) else (f, Some (Python ValueError))
  end.
(** cli.py l.292-306 with example_cases.py *)
Definition available_cases : list (string * string) :=
  [("example-input-volta", "10.4121/bbe10a2a-39dc-4098-a69f-0f677d06ecdd.v2"); ("example-input-eiffel", "10.4121/f9572240-f179-4338-9e1b-82c5598529e2.v1")].
Definition cli_download (w : net) (f : files) (cwd : place) (case : string) : files * option failure :=
  match find (fun c => String.eqb (fst c) case) available_cases with
  | Some (_, doi) => download_from_doi w f cwd doi case
  | None => (f, Some (Python ValueError))
  end.

(** ** Specification *)
(** a file system: a root, and everything else lies in a directory *)
Definition file_system (f : files) : Prop := f [] = Some Dir /\ forall p e, f p = Some e -> p <> [] -> f (removelast p) = Some Dir.
Fixpoint no_slash (s : string) : Prop := match s with EmptyString => True | String a s => a <> slash /\ no_slash s end.
(** a usual file name *)
Definition plain (n : string) : Prop := no_slash n /\ n <> "" /\ n <> "." /\ n <> "..".
(** the names of the additional files that the server lists for a data set *)
Definition listed (w : net) (id : string) (nu : string * string) : Prop :=
  exists status a l, n_api w 1 id = Some (status, Some a) /\ a_files a = Some l /\ In nu l.
(** the case of a DOI of 4TU *)
Definition of_4tu (doi id : string) : Prop := (exists q, parse_doi doi = OK ("10.4121", q)) /\ get_4tu_id doi = OK id.

(** ** Paths *)
Lemma split_no_slash s : no_slash s -> split_slash s = [s].
Proof.
  induction s as [|a s IH]; [reflexivity|]. intros [Ha Hs]. cbn [split_slash]. rewrite (IH Hs). apply Ascii.eqb_neq in Ha. now rewrite Ha.
Qed.
Lemma split_parts s x : In x (split_slash s) -> no_slash x.
Proof.
  revert x. induction s as [|a s IH]; intros x; cbn [split_slash]; [intros [<-|[]]; exact I|].
  destruct (Ascii.eqb_spec a slash) as [->|Ha].
  - intros [<-|H]; [exact I|auto].
  - destruct (split_slash s) as [|y l]; [intros [<-|[]]; cbn; auto|]. intros [<-|H]; [|apply IH; now right]. split; [exact Ha|]. apply IH. now left.
Qed.
Lemma split_nonempty s : split_slash s <> [].
Proof. destruct s as [|a s]; cbn; [discriminate|]. destruct (Ascii.eqb a slash); [discriminate|]. destruct (split_slash s); discriminate. Qed.
Lemma last_in {A} (l : list A) d : l <> [] -> In (last l d) l.
Proof. induction l as [|a l IH]; [congruence|]. intros _. destruct l as [|b l]; [now left|]. right. apply IH. discriminate. Qed.
Lemma basename_no_slash s : no_slash (last (split_slash s) "").
Proof. apply (split_parts s). apply last_in, split_nonempty. Qed.
Lemma join_no_slash p s : no_slash s -> join p s = enter p s.
Proof.
  intros H. unfold join. rewrite (split_no_slash s H). cbn [fold_left]. destruct s as [|a s]; [reflexivity|]. destruct H as [Ha _]. apply Ascii.eqb_neq in Ha. now rewrite Ha.
Qed.
Lemma join_plain p s : plain s -> join p s = p ++ [s].
Proof.
  intros (H & H1 & H2 & H3). rewrite join_no_slash by exact H. unfold enter.
  apply String.eqb_neq in H1, H2, H3. now rewrite H1, H2, H3.
Qed.
(** a name without slash leads to a file in the directory, to the directory or to the one above *)
Lemma join_cases p s : no_slash s -> join p s = p ++ [s] /\ plain s \/ join p s = p \/ join p s = removelast p.
Proof.
  intros H. rewrite join_no_slash by exact H. unfold enter. destruct (String.eqb_spec s ""); [now right; left|]. destruct (String.eqb_spec s "."); [now right; left|].
  cbn [orb]. destruct (String.eqb_spec s ".."); [now right; right|]. left. repeat split; auto.
Qed.
Lemma removelast_snoc {A} (p : list A) x : removelast (p ++ [x]) = p.
Proof. apply removelast_last. Qed.
Lemma put_same p e f : put p e f p = Some e.
Proof. unfold put. destruct (list_eq_dec string_dec p p); congruence. Qed.
Lemma put_other p e f q : q <> p -> put p e f q = f q.
Proof. intros H. unfold put. destruct (list_eq_dec string_dec q p); congruence. Qed.
Lemma snoc_ne {A} (p : list A) x : p ++ [x] <> p.
Proof. intros E. apply (f_equal (@List.length A)) in E. rewrite app_length in E. cbn in E. lia. Qed.

(** ** What a download changes *)
(** [f'] differs from [f] only by files in the directory [p] *)
Definition only_files_in (p : place) (f f' : files) : Prop :=
  forall q, f' q = f q \/ exists n b, plain n /\ q = p ++ [n] /\ f' q = Some (File b).
Lemma only_refl p f : only_files_in p f f.
Proof. intros q. now left. Qed.
Lemma only_trans p f g h : only_files_in p f g -> only_files_in p g h -> only_files_in p f h.
Proof. intros A B q. destruct (B q) as [E|E]; [|now right]. destruct (A q) as [E'|(n & b & H)]; [left; congruence|]. right. exists n, b. rewrite E. exact H. Qed.
Definition in_dir (p : place) (f : files) : Prop := f p = Some Dir /\ f (removelast p) = Some Dir.
Lemma in_dir_kept p f f' : only_files_in p f f' -> in_dir p f -> in_dir p f'.
Proof.
  intros H [A B]. split.
  - destruct (H p) as [->|(n & b & _ & E & _)]; [exact A|]. exfalso. apply (snoc_ne p n). now symmetry.
  - destruct (H (removelast p)) as [->|(n & b & _ & E & _)]; [exact B|]. exfalso.
    assert (L : List.length (removelast p) <= List.length p) by (clear; induction p as [|a [|b p] IH]; cbn in *; lia).
    apply (f_equal (@List.length string)) in E. rewrite app_length in E. cbn in E. lia.
Qed.
Lemma download_only w f url p filename f' r : (forall n, filename = Some n -> no_slash n) -> in_dir p f -> download w f url p filename = (f', r) -> only_files_in p f f'.
Proof.
  intros Hn [Hp Hq]. unfold download. set (n := match filename with Some n => n | None => _ end).
  assert (N : no_slash n) by (unfold n; destruct filename as [m|]; [now apply Hn|apply basename_no_slash]). clearbody n.
  destruct (n_get w url) as [a|]; [|intros [= <- <-]; apply only_refl].
  destruct (can_open f (join p n)) eqn:O; [|intros [= <- <-]; apply only_refl].
  destruct (join_cases p n N) as [[E P]|[E|E]].
  - rewrite E. assert (G : forall b, only_files_in p f (put (p ++ [n]) (File b) f)).
    { intros b q. destruct (list_eq_dec string_dec q (p ++ [n])) as [->|Q]; [right; exists n, b; split; [exact P|split; [reflexivity|apply put_same]]|left; now apply put_other]. }
    destruct (r_cut a); intros [= <- <-]; apply G.
  - exfalso. rewrite E in O. unfold can_open in O. rewrite Hp in O. discriminate.
  - exfalso. rewrite E in O. unfold can_open in O. rewrite Hq in O. discriminate.
Qed.
Lemma download_all_only w p l : (forall n u, In (Some n, u) l -> no_slash n) -> forall f f' r, in_dir p f -> download_all w f p l = (f', r) -> only_files_in p f f'.
Proof.
  induction l as [|[n u] l IH]; intros Hn f f' r D; cbn [download_all]; [intros [= <- <-]; apply only_refl|].
  destruct (download w f u p n) as [f1 [e|]] eqn:E1.
  - intros [= <- <-]. apply (download_only w f u p n f1 (Some e)); auto. intros m ->. apply (Hn m u). now left.
  - intros E. assert (O1 : only_files_in p f f1) by (apply (download_only w f u p n f1 None); auto; intros m ->; apply (Hn m u); now left).
    apply (only_trans p f f1 f' O1). apply (IH ltac:(intros m v H; apply (Hn m v); now right) f1 f' r); [|exact E]. now apply (in_dir_kept p f f1).
Qed.
Lemma dict_set_in l n u x : In x (dict_set l n u) -> x = (n, u) \/ In x l.
Proof.
  induction l as [|[m v] l IH]; cbn; [intros [<-|[]]; now left|]. destruct (String.eqb m n); intros [<-|H]; auto.
  destruct (IH H); auto.
Qed.
Lemma dict_in l : forall d x, In x (fold_left (fun d nu => dict_set d (fst nu) (snd nu)) l d) -> In x d \/ In x l.
Proof.
  induction l as [|[n u] l IH]; intros d x; cbn [fold_left]; [auto|]. intros H. destruct (IH _ _ H) as [H'|H']; [|right; now right].
  cbn [fst snd] in H'. destruct (dict_set_in _ _ _ _ H') as [->|]; [right; now left|now left].
Qed.
Lemma files_listed w id d nu : get_4tu_files w id = inl d -> In nu d -> listed w id nu.
Proof.
  unfold get_4tu_files, api. destruct (n_api w 1 id) as [[s [a|]]|] eqn:E; try discriminate.
  2:{ destruct (_ && _); discriminate. }
  destruct (_ && _); [discriminate|]. destruct (a_files a) as [l|] eqn:E'; [|discriminate]. intros [= <-] H. destruct (dict_in _ _ _ H) as [[]|H']. exists s, a, l. auto.
Qed.
Lemma in_dir_new p f : file_system f -> f p = None -> f (removelast p) = Some Dir -> in_dir p (put p Dir f).
Proof.
  intros _ A B. split; [apply put_same|]. destruct (list_eq_dec string_dec (removelast p) p) as [E|E]; [rewrite E in B; congruence|now rewrite put_other].
Qed.
Lemma download_4tu_only w f cwd doi name f' r : file_system f -> (forall id n u, get_4tu_id doi = OK id -> listed w id (n, u) -> no_slash n) ->
  download_from_4tu w f cwd doi name = (f', r) ->
  f' = f /\ (f (join cwd name) <> None /\ r = Some FileExists \/ f (removelast (join cwd name)) <> Some Dir /\ r = Some NoPlace) \/
  f (join cwd name) = None /\ f (removelast (join cwd name)) = Some Dir /\ only_files_in (join cwd name) (put (join cwd name) Dir f) f'.
Proof.
  intros Fs Hn. unfold download_from_4tu, create_target_directory. set (p := join cwd name). destruct (f p) as [e|] eqn:Fp.
  { intros [= <- <-]. left. split; [reflexivity|]. left. split; [congruence|reflexivity]. }
  destruct (f (removelast p)) as [[|b]|] eqn:Fq.
  2,3: intros [= <- <-]; left; split; [reflexivity|right; split; [discriminate|reflexivity]].
  intros E. right. split; [reflexivity|]. split; [reflexivity|]. pose proof (in_dir_new p f Fs Fp Fq) as D. revert E. generalize (put p Dir f) D. clear D. intros g D E.
  destruct (get_4tu_id doi) as [id|e] eqn:I; [|injection E as <- <-; apply only_refl].
  destruct (get_4tu_catalog w id) as [c|e]; [|injection E as <- <-; apply only_refl].
  destruct (n_thredds w c) as [urls|]; [|injection E as <- <-; apply only_refl].
  destruct (download_all w g p (map (fun u => (None, u)) urls)) as [g1 [e|]] eqn:E1.
  { injection E as <- <-. refine (download_all_only w p _ _ g g1 _ D E1). intros n u H. apply in_map_iff in H. destruct H as (? & [=] & _). }
  assert (O1 : only_files_in p g g1) by (refine (download_all_only w p _ _ g g1 _ D E1); intros n u H; apply in_map_iff in H; destruct H as (? & [=] & _)).
  destruct (get_4tu_files w id) as [d|e] eqn:Fl; [|injection E as <- <-; exact O1].
  apply (only_trans p g g1 f' O1). refine (download_all_only w p _ _ g1 f' r (in_dir_kept p g g1 O1 D) E).
  intros n u H. apply in_map_iff in H. destruct H as ([n' u'] & [= -> ->] & H). apply (Hn id n u eq_refl). now apply (files_listed w id d).
Qed.

(** ** C97: existing files are safe *)
(** If something with the name of the case exists, nothing is changed and the download fails; with FileExists if the
    DOI is one of 4TU. *)
Theorem C97_existing_target_refused w f cwd doi name e : f (join cwd name) = Some e ->
  exists r, download_from_doi w f cwd doi name = (f, Some r) /\ forall q, parse_doi doi = OK ("10.4121", q) -> r = FileExists.
Proof.
  intros H. unfold download_from_doi. destruct (parse_doi doi) as [[p q]|x]; [|eexists; split; [reflexivity|discriminate]].
  destruct (String.eqb_spec p "10.4121") as [->|Np].
  - unfold download_from_4tu, create_target_directory. rewrite H. eexists. split; reflexivity.
  - destruct (String.eqb p "10.5281"); eexists; (split; [reflexivity|]); intros q' [= E _]; congruence.
Qed.
(** Whatever the servers answer, and whether the download succeeds or stops at any point with any error: nothing that
    existed is changed, and what is new is the target directory and files in it -- if the file names that the server
    lists contain no slash. *)
Theorem C97_existing_files_untouched_partial w f cwd doi name f' r : file_system f ->
  (forall id n u, get_4tu_id doi = OK id -> listed w id (n, u) -> no_slash n) ->
  download_from_doi w f cwd doi name = (f', r) ->
  (forall q e, f q = Some e -> f' q = Some e) /\
  forall q, f' q <> f q -> q = join cwd name \/ exists n, plain n /\ q = join cwd name ++ [n].
Proof.
  intros Fs Hn E. unfold download_from_doi in E.
  assert (T : forall g : files, g = f -> (forall q e, f q = Some e -> g q = Some e) /\ forall q, g q <> f q -> q = join cwd name \/ exists n, plain n /\ q = join cwd name ++ [n]).
  { intros g ->. split; [auto|]. intros q H. congruence. }
  destruct (parse_doi doi) as [[p q]|x]; [|injection E as <- <-; now apply T].
  destruct (String.eqb p "10.4121"); [|destruct (String.eqb p "10.5281"); injection E as <- <-; now apply T].
  apply download_4tu_only in E; [|exact Fs|exact Hn]. destruct E as [[-> _]|(A & B & O)]; [now apply T|]. split.
  - intros p' e He. destruct (O p') as [->|(n & b & _ & -> & _)].
    + rewrite put_other; [exact He|congruence].
    + exfalso. destruct Fs as [_ Fs]. assert (X : f (removelast (join cwd name ++ [n])) = Some Dir) by (apply (Fs _ e He); intros Q; apply app_eq_nil in Q; destruct Q; discriminate).
      rewrite removelast_snoc in X. congruence.
  - intros p' H. destruct (O p') as [Q|(n & b & P & -> & _)]; [|right; eauto]. left. destruct (list_eq_dec string_dec p' (join cwd name)) as [->|D]; [reflexivity|].
    exfalso. apply H. rewrite Q. now apply put_other.
Qed.
(** But a name with slashes leads elsewhere: the server can replace any file in the working directory. *)
Theorem C97_hostile_file_name_refuted f cwd doi id name victim old new : of_4tu doi id -> file_system f -> plain name -> plain victim -> name <> victim ->
  f cwd = Some Dir -> f (cwd ++ [name]) = None -> f (cwd ++ [victim]) = Some (File old) ->
  exists w f', download_from_doi w f cwd doi name = (f', None) /\ f' (cwd ++ [victim]) = Some (File new).
Proof.
  intros [[q Hp] Hi] Fs Pn Pv Nv Hc Hn Hv.
  exists (mknet (fun _ => Some (mkresponse 200 new None None)) (fun _ _ => Some (200, Some (mkarticle (Some [("Data Link", ["c"])]) (Some [(("../" ++ victim)%string, "u")])))) (fun _ => Some [])).
  unfold download_from_doi. rewrite Hp, String.eqb_refl. unfold download_from_4tu. rewrite (join_plain cwd name Pn). unfold create_target_directory. rewrite Hn, removelast_snoc, Hc, Hi.
  cbn [get_4tu_catalog api n_api Nat.leb Nat.ltb andb a_fields data_link String.eqb Ascii.eqb Bool.eqb n_thredds map download_all get_4tu_files a_files fold_left dict_set fst snd].
  unfold download. cbn [n_get r_cut r_raw r_coding r_body].
  assert (J : join (cwd ++ [name]) ("../" ++ victim)%string = cwd ++ [victim]).
  { unfold join. cbn [String.append]. cbn [split_slash]. rewrite (split_no_slash victim (proj1 Pv)). change (Ascii.eqb "/" slash) with true. change (Ascii.eqb "." slash) with false. cbn [fold_left].
    unfold enter at 2. cbn [String.eqb Ascii.eqb Bool.eqb orb]. rewrite removelast_snoc. destruct Pv as (_ & H1 & H2 & H3). unfold enter. apply String.eqb_neq in H1, H2, H3. now rewrite H1, H2, H3. }
  rewrite J. unfold can_open. rewrite removelast_snoc.
  rewrite (put_other _ _ _ (cwd ++ [victim])) by (intros Q; apply app_inj_tail in Q; destruct Q; congruence). rewrite Hv.
  rewrite (put_other _ _ _ cwd) by (intros Q; apply (snoc_ne cwd name); now symmetry). rewrite Hc. eexists. split; [reflexivity|]. apply put_same.
Qed.

(** ** C98: what a successful download leaves *)
(** The files of the data set: those of the catalogue under the last part of their url, and the additional ones under
    their names; [catalogue] belongs to the "Data Link" of the data set, a page name.html *)
Definition data_set (w : net) (id : string) (l : list (string * string)) : Prop :=
  exists s0 s1 a0 a1 fields link rest stem urls others,
    n_api w 0 id = Some (s0, Some a0) /\ n_api w 1 id = Some (s1, Some a1) /\ a_fields a0 = Some fields /\ In ("Data Link", link :: rest) fields /\
    (forall v, In ("Data Link", v) fields -> v = link :: rest) /\
    link = (stem ++ ".html")%string /\ (forall a b, (stem ++ ".htm")%string <> (a ++ ".html" ++ b)%string) /\
    n_thredds w (stem ++ ".xml") = Some urls /\ a_files a1 = Some others /\
    l = map (fun u => (last (split_slash u) "", u)) urls ++ others.
(** an answer with the resource itself *)
Definition serves (w : net) (url content : string) : Prop := exists r, n_get w url = Some r /\ r_body r = content /\ r_coding r = None /\ 200 <= r_status r < 300.

Lemma prefix_spec p s : prefix p s = true <-> exists b, s = (p ++ b)%string.
Proof.
  revert s. induction p as [|a p IH]; intros s; cbn.
  - split; [intros _; now exists s|destruct s; reflexivity].
  - destruct s as [|c s]; [split; [discriminate|intros [b [=]]]|]. cbn [String.append prefix]. destruct (ascii_dec a c) as [->|N]; [rewrite IH|]; split.
    + intros [b ->]. now exists b. + intros [b [= ->]]. now exists b. + discriminate. + intros [b [= E _]]. congruence.
Qed.
Lemma sappend_assoc a b c : ((a ++ b) ++ c)%string = (a ++ b ++ c)%string.
Proof. induction a as [|x a IH]; cbn; [reflexivity|now rewrite IH]. Qed.
Lemma html_to_xml_ok stem : (forall a b, (stem ++ ".htm")%string <> (a ++ ".html" ++ b)%string) -> html_to_xml 0 (stem ++ ".html") = (stem ++ ".xml")%string.
Proof.
  induction stem as [|c s IH]; intros H; [reflexivity|]. cbn [String.append html_to_xml].
  replace (prefix ".html" (String c (s ++ ".html"))) with false.
  - f_equal. apply IH. intros a b E. apply (H (String c a) b). cbn. now rewrite E.
  - symmetry. apply not_true_is_false. intros P. apply prefix_spec in P. destruct P as [b E].
    assert (Len : 1 <= String.length b).
    { apply (f_equal String.length) in E. assert (X : String.length (s ++ ".html") = String.length s + 5) by (clear; induction s as [|x s IH]; cbn [String.append String.length]; [reflexivity|rewrite IH; reflexivity]).
      cbn [String.append String.length] in E. rewrite X in E. lia. }
    assert (R : forall x : string, exists y z, 1 <= String.length x -> x = (y ++ String z "")%string).
    { clear. induction x as [|a x IH]; [exists "", "a"%char; cbn; lia|]. destruct x as [|b x]; [exists "", a; reflexivity|]. destruct IH as (y & z & IH). exists (String a y), z. intros _. cbn. rewrite IH by (cbn; lia). reflexivity. }
    destruct (R b) as (y & z & Eb). specialize (Eb Len). apply (H "" y). cbn.
    assert (Inj : forall u v x x', (u ++ String x "")%string = (v ++ String x' "")%string -> u = v).
    { clear. induction u as [|a u IH]; intros [|b v] x x' E; cbn in E; auto.
      - injection E as -> E. destruct v; discriminate. - injection E as -> E. destruct u; discriminate. - injection E as -> E. f_equal. now apply (IH v x x'). }
    apply (Inj _ _ "l"%char z). cbn. rewrite Eb in E. cbn in E. injection E as -> E. f_equal.
    replace ((s ++ ".htm") ++ "l")%string with (s ++ ".html")%string; [exact E|]. now rewrite sappend_assoc.
Qed.
Lemma data_link_ok fields link rest : In ("Data Link", link :: rest) fields -> (forall v, In ("Data Link", v) fields -> v = link :: rest) -> forall acc, data_link fields acc = inl (Some link).
Proof.
  intros H1 H2. assert (G : forall acc, data_link fields acc = inl (Some link) \/ ~ In ("Data Link", link :: rest) fields /\ data_link fields acc = inl acc).
  { clear H1. induction fields as [|[n v] l IH]; intros acc; [right; split; [intros []|reflexivity]|]. cbn [data_link].
    assert (IH' : forall acc, data_link l acc = inl (Some link) \/ ~ In ("Data Link", link :: rest) l /\ data_link l acc = inl acc) by (apply IH; intros x Hx; apply H2; now right).
    destruct (String.eqb_spec n "Data Link") as [->|Nn].
    - rewrite (H2 v (or_introl eq_refl)). left. destruct (IH' (Some link)) as [E|[_ E]]; exact E.
    - destruct (IH' acc) as [E|[N E]]; [now left|]. right. split; [|exact E]. intros [[= Q _]|Q]; auto. }
  intros acc. destruct (G acc) as [E|[N _]]; [exact E|contradiction].
Qed.
Lemma dict_nodup l : forall d, NoDup (map fst (d ++ l)) -> fold_left (fun d nu => dict_set d (fst nu) (snd nu)) l d = d ++ l.
Proof.
  induction l as [|[n u] l IH]; intros d H; cbn [fold_left fst snd]; [now rewrite app_nil_r|].
  assert (E : dict_set d n u = d ++ [(n, u)]).
  { assert (Hn : ~ In n (map fst d)). { rewrite map_app in H. cbn in H. apply NoDup_remove_2 in H. intros Q. apply H. apply in_or_app. now left. }
    clear - Hn. induction d as [|[m v] d IH]; [reflexivity|]. cbn in *. destruct (String.eqb_spec m n) as [->|]; [tauto|]. f_equal. apply IH. tauto. }
  rewrite E, IH; rewrite <- app_assoc; [reflexivity|exact H].
Qed.
(** the loop with good answers *)
Lemma download_all_ok w p l (content : string -> string) : forall f, in_dir p f -> NoDup (map fst l) -> (forall n u, In (n, u) l -> plain n /\ f (p ++ [n]) <> Some Dir /\ serves w u (content n) /\ (forall r, n_get w u = Some r -> r_cut r = None)) ->
  forall how, (forall n u, In (n, u) l -> how (n, u) = Some n \/ how (n, u) = None /\ last (split_slash u) "" = n) ->
  exists f', download_all w f p (map (fun nu => (how nu, snd nu)) l) = (f', None) /\
    (forall n u, In (n, u) l -> f' (p ++ [n]) = Some (File (content n))) /\ forall q, (forall n u, In (n, u) l -> q <> p ++ [n]) -> f' q = f q.
Proof.
  induction l as [|[n u] l IH]; intros f D Nd H how Hh; cbn [map download_all snd].
  - exists f. split; [reflexivity|]. split; [intros ? ? []|auto].
  - destruct (H n u (or_introl eq_refl)) as (Pn & Fn & (r & G & B & C & _) & Cut). cbn [map fst] in Nd. inversion Nd as [|? ? Nn Nd']; subst.
    assert (E : download w f u p (how (n, u)) = (put (p ++ [n]) (File (content n)) f, None)).
    { unfold download. rewrite G. replace (match how (n, u) with Some x => x | None => last (split_slash u) "" end) with n by (destruct (Hh n u (or_introl eq_refl)) as [->|[-> ->]]; reflexivity).
      rewrite (join_plain p n Pn). unfold can_open. rewrite removelast_snoc, (proj1 D). rewrite (Cut r G). unfold r_raw. rewrite C, B.
      destruct (f (p ++ [n])) as [[|b]|]; [congruence|reflexivity|reflexivity]. }
    rewrite E. set (f1 := put _ _ _).
    assert (O1 : forall q, q <> p ++ [n] -> f1 q = f q) by (intros q Q; now apply put_other).
    destruct (IH f1) with (how := how) as (f' & E' & A & Z).
    + apply (in_dir_kept p f); [|exact D]. intros q. destruct (list_eq_dec string_dec q (p ++ [n])) as [->|Q]; [right; exists n, (content n); split; [exact Pn|split; [reflexivity|apply put_same]]|left; auto].
    + exact Nd'.
    + intros n' u' Hin. destruct (H n' u' (or_intror Hin)) as (P' & F' & S'). split; [exact P'|]. split; [|exact S']. rewrite O1; [exact F'|].
      intros Q. apply app_inj_tail in Q. destruct Q as [_ ->]. apply Nn. apply in_map_iff. now exists (n, u').
    + intros n' u' Hin. apply Hh. now right.
    + exists f'. split; [exact E'|]. split.
      * intros n' u' [[= <- <-]|Hin]; [|now apply (A n' u')]. rewrite Z; [apply put_same|]. intros n2 u2 H2 Q. apply app_inj_tail in Q. destruct Q as [_ <-]. apply Nn. apply in_map_iff. now exists (n, u2).
      * intros q Q. rewrite Z by (intros n' u' Hin; apply (Q n' u'); now right). apply O1. apply (Q n u). now left.
Qed.
(** If every file has its own plain name, the servers answer without error and send the files as they are, the
    download succeeds and the new directory has exactly the files of the data set with their content. *)
Theorem C98_all_files_arrive_partial w f cwd doi id name l content : of_4tu doi id -> file_system f -> f (join cwd name) = None -> f (removelast (join cwd name)) = Some Dir ->
  (forall k s j, n_api w k id = Some (s, j) -> ~ (400 <= s < 600)) -> data_set w id l -> NoDup (map fst l) ->
  (forall n u, In (n, u) l -> plain n /\ serves w u (content n) /\ (forall r, n_get w u = Some r -> r_cut r = None)) ->
  exists f', download_from_doi w f cwd doi name = (f', None) /\ f' (join cwd name) = Some Dir /\
    (forall n, f' (join cwd name ++ [n]) = if in_dec string_dec n (map fst l) then Some (File (content n)) else None) /\
    forall q, f q <> None -> f' q = f q.
Proof.
  intros [[q Hp] Hi] Fs Hn Hq Hst (s0 & s1 & a0 & a1 & fields & link & rest & stem & urls & others & A0 & A1 & Ef & Hin & Hun & El & Hocc & Th & Eo & El') Nd Hl.
  unfold download_from_doi. rewrite Hp, String.eqb_refl. unfold download_from_4tu, create_target_directory. set (p := join cwd name) in *. rewrite Hn, Hq, Hi.
  unfold get_4tu_catalog, get_4tu_files, api. rewrite A0, A1.
  assert (St : forall s, ~ (400 <= s < 600) -> (400 <=? s) && (s <? 600) = false) by (intros s Hs; destruct (Nat.leb_spec 400 s), (Nat.ltb_spec s 600); cbn; auto; lia).
  rewrite (St s0 (Hst 0 _ _ A0)), (St s1 (Hst 1 _ _ A1)), Ef, Eo, (data_link_ok fields link rest Hin Hun), El, (html_to_xml_ok stem Hocc), Th.
  pose proof (in_dir_new p f Fs Hn Hq) as D.
  assert (Nf : forall n, put p Dir f (p ++ [n]) = None).
  { intros n. rewrite put_other by apply snoc_ne. destruct (f (p ++ [n])) as [e|] eqn:E; [|reflexivity]. exfalso. destruct Fs as [_ Fs]. specialize (Fs _ _ E). rewrite removelast_snoc in Fs. rewrite Fs in Hn; [discriminate|]. intros Q. apply app_eq_nil in Q. destruct Q; discriminate. }
  set (l1 := map (fun u => (last (split_slash u) "", u)) urls) in *.
  assert (Nd1 : NoDup (map fst l1)) by (rewrite El', map_app in Nd; clear - Nd; induction (map fst l1) as [|a m IH]; [constructor|]; cbn in Nd; inversion Nd; subst; constructor; [intros Q; apply H1; apply in_or_app; now left|auto]).
  assert (Nd2 : NoDup (map fst others)) by (rewrite El', map_app in Nd; clear - Nd; induction (map fst l1) as [|a m IH]; [exact Nd|]; cbn in Nd; inversion Nd; subst; auto).
  destruct (download_all_ok w p l1 content (put p Dir f) D Nd1) with (how := fun _ : string * string => @None string) as (f1 & E1 & In1 & Out1).
  { intros n u H. rewrite Nf. destruct (Hl n u) as (P & S & C); [rewrite El'; apply in_or_app; now left|]. repeat split; auto; try apply P. discriminate. }
  { intros n u H. right. split; [reflexivity|]. apply in_map_iff in H. destruct H as (x & [= <- <-] & _). reflexivity. }
  replace (map (fun u => (None, u)) urls) with (map (fun nu : string * string => (@None string, snd nu)) l1) by (unfold l1; now rewrite map_map). rewrite E1.
  rewrite (dict_nodup others []) by exact Nd2. cbn [app].
  assert (D1 : in_dir p f1).
  { destruct D as [Da Db]. split.
    - rewrite Out1; [exact Da|]. intros n u _ Q. apply (snoc_ne p n). now symmetry.
    - rewrite Out1; [exact Db|]. intros n u _ Q. assert (L : List.length (removelast p) <= List.length p) by (clear; induction p as [|a [|b p] IH]; cbn in *; lia). apply (f_equal (@List.length string)) in Q. rewrite app_length in Q. cbn in Q. lia. }
  destruct (download_all_ok w p others content f1 D1 Nd2) with (how := fun nu : string * string => Some (fst nu)) as (f2 & E2 & In2 & Out2).
  { intros n u H. destruct (Hl n u) as (P & S & C); [rewrite El'; apply in_or_app; now right|]. split; [exact P|]. split; [|split; assumption].
    rewrite Out1; [rewrite Nf; discriminate|]. intros n' u' H' Q. apply app_inj_tail in Q. destruct Q as [_ <-]. rewrite El', map_app in Nd.
    clear - Nd H H'. induction l1 as [|[a b] m IH]; [destruct H'|]. cbn in Nd. inversion Nd; subst. destruct H' as [[= -> ->]|H']; [|auto]. apply H2. apply in_or_app. right. apply in_map_iff. now exists (n, u). }
  { intros n u H. now left. }
  rewrite E2. exists f2. split; [reflexivity|]. split; [exact (proj1 (in_dir_kept p f1 f2 ltac:(refine (download_all_only w p _ _ f1 f2 None D1 E2); intros n u H; apply in_map_iff in H; destruct H as ([n' u'] & [= -> ->] & H); apply (Hl n u); rewrite El'; apply in_or_app; now right) D1))|]. split.
  - intros n. destruct (in_dec string_dec n (map fst l)) as [H|H].
    + rewrite El', map_app in H. destruct (in_dec string_dec n (map fst others)) as [H2|H2].
      * apply in_map_iff in H2. destruct H2 as ([n' u] & <- & H2). now apply (In2 _ u).
      * apply in_app_or in H. destruct H as [H|H]; [|contradiction]. apply in_map_iff in H. destruct H as ([n' u] & <- & H). cbn [fst] in *.
        rewrite Out2; [now apply (In1 _ u)|]. intros n2 u2 Hi2 Q. apply app_inj_tail in Q. destruct Q as [_ <-]. apply H2. apply in_map_iff. now exists (n', u2).
    + rewrite El', map_app in H. rewrite Out2, Out1.
      * apply Nf. * intros n' u' Hi' Q. apply app_inj_tail in Q. destruct Q as [_ <-]. apply H. apply in_or_app. left. apply in_map_iff. now exists (n, u').
      * intros n' u' Hi' Q. apply app_inj_tail in Q. destruct Q as [_ <-]. apply H. apply in_or_app. right. apply in_map_iff. now exists (n, u').
  - intros x Hx. assert (X : forall n, x <> p ++ [n]). { intros n ->. specialize (Nf n). rewrite put_other in Nf by apply snoc_ne. contradiction. }
    rewrite Out2 by (intros n u _; apply X). rewrite Out1 by (intros n u _; apply X). apply put_other. intros ->. contradiction.
Qed.

(** A download also succeeds if the server answers with an error page, which is then stored as the file; or with a
    compressed file, which is stored compressed; or if two files have the same name, of which only one is kept. *)
Theorem C98_what_is_stored_refuted w f cwd doi id name stem u0 u1 r0 r1 : of_4tu doi id -> file_system f -> f (join cwd name) = None -> f (removelast (join cwd name)) = Some Dir ->
  (forall k, n_api w k id = Some (200, Some (mkarticle (Some [("Data Link", [(stem ++ ".html")%string])]) (Some [])))) -> (forall a b, (stem ++ ".htm")%string <> (a ++ ".html" ++ b)%string) ->
  n_thredds w (stem ++ ".xml")%string = Some [u0; u1] -> plain (last (split_slash u0) "") -> plain (last (split_slash u1) "") ->
  n_get w u0 = Some r0 -> n_get w u1 = Some r1 -> r_cut r0 = None -> r_cut r1 = None ->
  exists f', download_from_doi w f cwd doi name = (f', None) /\ f' (join cwd name ++ [last (split_slash u1) ""]) = Some (File (r_raw r1)) /\
    (last (split_slash u0) "" <> last (split_slash u1) "" -> f' (join cwd name ++ [last (split_slash u0) ""]) = Some (File (r_raw r0))) /\
    (forall n, n <> last (split_slash u0) "" -> n <> last (split_slash u1) "" -> f' (join cwd name ++ [n]) = None).
Proof.
  intros [[q Hp] Hi] Fs Hn Hq Ha Hocc Th P0 P1 G0 G1 C0 C1.
  unfold download_from_doi. rewrite Hp, String.eqb_refl. unfold download_from_4tu, create_target_directory. set (p := join cwd name) in *. rewrite Hn, Hq, Hi.
  unfold get_4tu_catalog, get_4tu_files, api. rewrite !Ha. cbn [Nat.leb Nat.ltb andb a_fields a_files data_link String.eqb Ascii.eqb Bool.eqb fold_left].
  change ((400 <=? 200) && (200 <? 600)) with false. cbn iota. rewrite (html_to_xml_ok stem Hocc), Th. cbn [map download_all].
  set (n0 := last (split_slash u0) "") in *. set (n1 := last (split_slash u1) "") in *.
  assert (Nf : forall n, put p Dir f (p ++ [n]) = None).
  { intros n. rewrite put_other by apply snoc_ne. destruct (f (p ++ [n])) as [e|] eqn:E; [|reflexivity]. exfalso. destruct Fs as [_ Fs]. specialize (Fs _ _ E). rewrite removelast_snoc in Fs. rewrite Fs in Hn; [discriminate|]. intros Q. apply app_eq_nil in Q. destruct Q; discriminate. }
  unfold download at 1. fold n0. rewrite G0, C0, (join_plain p n0 P0). unfold can_open at 1. rewrite Nf, removelast_snoc, put_same.
  unfold download at 1. fold n1. rewrite G1, C1, (join_plain p n1 P1). unfold can_open. rewrite removelast_snoc.
  assert (Dp : put (p ++ [n0]) (File (r_raw r0)) (put p Dir f) p = Some Dir) by (rewrite put_other, put_same; [reflexivity|intros Q; apply (snoc_ne p n0); now symmetry]). rewrite Dp.
  assert (O : forall n, match put (p ++ [n0]) (File (r_raw r0)) (put p Dir f) (p ++ [n]) with Some Dir => false | _ => true end = true).
  { intros n. destruct (string_dec n n0) as [->|Q]; [now rewrite put_same|]. rewrite put_other, Nf; [reflexivity|]. intros E. apply app_inj_tail in E. destruct E; congruence. }
  rewrite O. eexists. split; [reflexivity|]. split; [apply put_same|]. split.
  - intros Q. rewrite put_other, put_same; [reflexivity|]. intros E. apply app_inj_tail in E. destruct E; congruence.
  - intros n Q0 Q1. rewrite !put_other, <- (Nf n); [rewrite put_other by apply snoc_ne; reflexivity| | |]; try (intros E; apply app_inj_tail in E; destruct E; congruence). apply snoc_ne.
Qed.

(** ** C99: repeating a failed download *)
(** After any attempt that got as far as the directory, whatever went wrong or not, every further attempt is refused,
    even if the servers are all right now; nothing is downloaded. *)
Theorem C99_retry_refused_refuted w w' f cwd doi id name f' r : of_4tu doi id -> file_system f -> (forall n u, listed w id (n, u) -> no_slash n) ->
  f (join cwd name) = None -> f (removelast (join cwd name)) = Some Dir -> download_from_doi w f cwd doi name = (f', r) ->
  download_from_doi w' f' cwd doi name = (f', Some FileExists).
Proof.
  intros [[q Hp] Hi] Fs Hl Hn Hq E. unfold download_from_doi in E. rewrite Hp, String.eqb_refl in E.
  apply download_4tu_only in E; [|exact Fs|intros id' n u I; rewrite Hi in I; injection I as <-; apply Hl].
  destruct E as [[_ [[X _]|[X _]]]|(_ & _ & O)]; [contradiction|contradiction|].
  assert (Ed : f' (join cwd name) = Some Dir).
  { destruct (O (join cwd name)) as [->|(n & b & _ & Q & _)]; [apply put_same|]. exfalso. apply (snoc_ne (join cwd name) n). now symmetry. }
  destruct (C97_existing_target_refused w' f' cwd doi name Dir Ed) as (r' & -> & R). now rewrite (R q Hp).
Qed.
(** A DOI that cannot be parsed or belongs to another provider is refused before anything is changed. *)
Theorem C99_rejected_doi_leaves_nothing_partial w f cwd doi name : (forall q, parse_doi doi <> OK ("10.4121", q)) ->
  exists e, download_from_doi w f cwd doi name = (f, Some e).
Proof.
  intros H. unfold download_from_doi. destruct (parse_doi doi) as [[p q]|e]; [|eauto].
  destruct (String.eqb_spec p "10.4121") as [->|_]; [now destruct (H q)|]. destruct (String.eqb p "10.5281"); eauto.
Qed.
(** The user can repeat the download after removing the directory: that brings back the state before. *)
Fixpoint below (p q : place) : bool := match p, q with [], _ => true | x :: p, y :: q => String.eqb x y && below p q | _ :: _, [] => false end.
Lemma below_app p q : below p q = true <-> exists r, q = p ++ r.
Proof.
  revert q. induction p as [|x p IH]; intros q; cbn; [split; [intros _; now exists q|reflexivity]|].
  destruct q as [|y q]; [split; [discriminate|intros [r [=]]]|]. rewrite andb_true_iff, String.eqb_eq, IH. split; [intros [-> [r ->]]; now exists r|intros [r [= -> ->]]; split; eauto].
Qed.
Theorem C99_remove_and_retry_partial w f cwd doi id name f' r : of_4tu doi id -> file_system f -> (forall n u, listed w id (n, u) -> no_slash n) ->
  f (join cwd name) = None -> download_from_doi w f cwd doi name = (f', r) ->
  forall q, (if below (join cwd name) q then None else f' q) = f q.
Proof.
  intros [[q Hp] Hi] Fs Hl Hn E x. unfold download_from_doi in E. rewrite Hp, String.eqb_refl in E.
  assert (Nb : forall y, f (join cwd name ++ y) = None).
  { intros y. induction y as [|z y IH] using rev_ind; [now rewrite app_nil_r|]. rewrite app_assoc. destruct (f ((join cwd name ++ y) ++ [z])) as [e|] eqn:Q; [|reflexivity].
    exfalso. destruct Fs as [_ Fs]. specialize (Fs _ _ Q). rewrite removelast_snoc, IH in Fs. discriminate Fs. intros Z. apply app_eq_nil in Z. destruct Z; discriminate. }
  destruct (below (join cwd name) x) eqn:B.
  { apply below_app in B. destruct B as [y ->]. symmetry. apply Nb. }
  apply download_4tu_only in E; [|exact Fs|intros id' n u I; rewrite Hi in I; injection I as <-; apply Hl].
  destruct E as [[-> _]|(_ & _ & O)]; [reflexivity|]. destruct (O x) as [->|(n & b & _ & -> & _)].
  - apply put_other. intros ->. assert (X : below (join cwd name) (join cwd name) = true) by (apply below_app; exists []; now rewrite app_nil_r). congruence.
  - assert (X : below (join cwd name) (join cwd name ++ [n]) = true) by (apply below_app; now exists [n]). congruence.
Qed.

(** ** The hypotheses can be met *)
(** the cases that the command line offers are data sets of 4TU, and their names are plain *)
Example C97_cases : Forall (fun c => plain (fst c) /\ exists id, of_4tu (snd c) id) available_cases.
Proof.
  repeat constructor; try discriminate; cbn [fst snd]; try (eexists; split; [eexists; vm_compute; reflexivity|vm_compute; reflexivity]); vm_compute; discriminate.
Qed.
Definition C98_f : files := put ["home"; "notes.txt"] (File "mine") (put ["home"] Dir (put [] Dir (fun _ => None))).
Definition C98_net (r : response) : net :=
  mknet (fun u => Some (if String.eqb u "https://x/a.nc" then r else mkresponse 200 u None None))
        (fun _ _ => Some (200, Some (mkarticle (Some [("Organization", ["TU"]); ("Data Link", ["https://x/catalog.html"])]) (Some [("config.yaml", "https://y/7")]))))
        (fun c => if String.eqb c "https://x/catalog.xml" then Some ["https://x/a.nc"; "https://x/b.nc"] else None).
Example C98_file_system : file_system C98_f.
Proof.
  split; [reflexivity|]. intros p e. unfold C98_f at 1, put.
  destruct (list_eq_dec string_dec p ["home"; "notes.txt"]) as [->|_]; [reflexivity|]. destruct (list_eq_dec string_dec p ["home"]) as [->|_]; [reflexivity|].
  destruct (list_eq_dec string_dec p []) as [->|_]; [congruence|discriminate].
Qed.
Lemma plain_examples : plain "a.nc" /\ plain "b.nc" /\ plain "config.yaml" /\ plain "example-input-volta" /\ plain "notes.txt".
Proof. repeat split; discriminate. Qed.
Fixpoint occurs (p s : string) : bool := prefix p s || match s with EmptyString => false | String _ s => occurs p s end.
Lemma occurs_spec p a b : occurs p (a ++ p ++ b) = true.
Proof.
  induction a as [|c a IH].
  - cbn [String.append]. assert (P : prefix p (p ++ b) = true) by (apply prefix_spec; eauto). destruct (p ++ b)%string; cbn [occurs]; now rewrite P.
  - cbn [String.append occurs]. rewrite IH. apply orb_true_r.
Qed.
(** a good server: the hypotheses of [C98_all_files_arrive_partial] and [C97_existing_files_untouched_partial] *)
Example C98_case : let w := C98_net (mkresponse 200 "netcdf" None None) in let doi := "10.4121/bbe10a2a-39dc-4098-a69f-0f677d06ecdd.v2" in
  let id := "bbe10a2a-39dc-4098-a69f-0f677d06ecdd" in
  let l := [("a.nc", "https://x/a.nc"); ("b.nc", "https://x/b.nc"); ("config.yaml", "https://y/7")] in
  of_4tu doi id /\ C98_f (join ["home"] "example-input-volta") = None /\ C98_f (removelast (join ["home"] "example-input-volta")) = Some Dir /\
  (forall k s j, n_api w k id = Some (s, j) -> ~ (400 <= s < 600)) /\ data_set w id l /\ NoDup (map fst l) /\
  (forall n u, In (n, u) l -> plain n /\ (exists c, serves w u c) /\ (forall r, n_get w u = Some r -> r_cut r = None)) /\
  (forall n u, listed w id (n, u) -> no_slash n).
Proof.
  cbv zeta. split; [split; [eexists; vm_compute; reflexivity|vm_compute; reflexivity]|]. split; [reflexivity|]. split; [reflexivity|]. split.
  { intros k s j [= <- _]. lia. }
  split. { do 4 eexists. exists [("Organization", ["TU"]); ("Data Link", ["https://x/catalog.html"])], "https://x/catalog.html", [], "https://x/catalog", ["https://x/a.nc"; "https://x/b.nc"], [("config.yaml", "https://y/7")].
    repeat split; try reflexivity; [cbn; auto| |].
    - intros v [[=]|[[= <-]|[]]]. reflexivity.
    - intros a b E. apply (f_equal (occurs ".html")) in E. rewrite occurs_spec in E. discriminate. }
  split; [cbn; repeat constructor; cbn; intuition discriminate|]. destruct plain_examples as (P1 & P2 & P3 & _). split.
  - intros n u H. cbn in H. repeat (destruct H as [[= <- <-]|H]; [split; [assumption|split; [eexists; eexists; split; [reflexivity|split; [reflexivity|split; [reflexivity|cbn; lia]]]|intros r [= <-]; reflexivity]]|]). destruct H.
  - intros n u (s & a & l & [= _ <-] & [= <-] & [[= <- <-]|[]]). apply P3.
Qed.
(** a server that knows nothing about a file and sends another one compressed: the hypotheses of
    [C98_what_is_stored_refuted]; and two files of the same name *)
Definition C98_bad_net (u1 : string) : net :=
  mknet (fun u => Some (if String.eqb u "https://x/1/a.nc" then mkresponse 404 "not found" None None else mkresponse 200 "netcdf" (Some (fun s => "gzip" ++ s)%string) None))
        (fun _ _ => Some (200, Some (mkarticle (Some [("Data Link", [("https://x/catalog" ++ ".html")%string])]) (Some []))))
        (fun c => if String.eqb c "https://x/catalog.xml" then Some ["https://x/1/a.nc"; u1] else None).
Corollary C98_error_page_refuted : forall u1, plain (last (split_slash u1) "") -> u1 <> "https://x/1/a.nc" ->
  exists f', download_from_doi (C98_bad_net u1) C98_f ["home"] "10.4121/bbe10a2a-39dc-4098-a69f-0f677d06ecdd.v2" "example-input-volta" = (f', None) /\
    f' ["home"; "example-input-volta"; last (split_slash u1) ""] = Some (File "gzipnetcdf") /\
    (last (split_slash u1) "" <> "a.nc" -> f' ["home"; "example-input-volta"; "a.nc"] = Some (File "not found")).
Proof.
  intros u1 P1 Nu. destruct plain_examples as (P0 & _).
  destruct (C98_what_is_stored_refuted (C98_bad_net u1) C98_f ["home"] "10.4121/bbe10a2a-39dc-4098-a69f-0f677d06ecdd.v2" "bbe10a2a-39dc-4098-a69f-0f677d06ecdd" "example-input-volta" "https://x/catalog" "https://x/1/a.nc" u1
    (mkresponse 404 "not found" None None) (mkresponse 200 "netcdf" (Some (fun s => "gzip" ++ s)%string) None)) as (f' & E & A & B & _); try reflexivity; auto.
  - split; [eexists; vm_compute; reflexivity|vm_compute; reflexivity].
  - apply C98_file_system.
  - intros a b E. apply (f_equal (occurs ".html")) in E. rewrite occurs_spec in E. discriminate.
  - cbn [C98_bad_net n_get]. apply String.eqb_neq in Nu. now rewrite Nu.
  - exists f'. split; [exact E|]. split; [exact A|]. intros Q. apply B. cbn. congruence.
Qed.
