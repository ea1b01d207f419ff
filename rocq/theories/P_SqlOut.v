(** C77: the query the sql tool is asked, and where its results go. *)
From Coq Require Import String.
From Verif Require Import Base Fp Stream Codec Meta Header Table Reader Writer RowReader Dispatcher Csv DispatchNames
  CommandLine CommandLineSpec P_CommandLine ToolMain ToolSpec P_ToolMain ToolMore P_ToolMore SqlOut SqlOutSpec.
From Verif Require Import StreamLocal StreamProofs.
From Verif Require P_Tables.
Open Scope Z_scope.
Local Notation length := List.length.

(** ** Whether a word is a query *)
Lemma holds_text_iff s : forall t, holds_text s t = true <-> exists a b, t = a ++ s ++ b.
Proof.
  induction t as [|c t IH]; cbn [holds_text].
  - rewrite orb_false_r, P_Tables.starts_with_app. split.
    + intros (r & E). exists [], r. exact E.
    + intros ([|x a] & b & E); [exists b; exact E|discriminate E].
  - rewrite orb_true_iff, P_Tables.starts_with_app, IH. split.
    + intros [(r & E)|(a & b & ->)]; [exists [], r; exact E|exists (c :: a), b; reflexivity].
    + intros ([|x a] & b & E); [left; exists b; exact E|right; injection E as _ E; exists a, b; exact E].
Qed.

Lemma drop_mid f it : it <> [] -> Forall (fun c => f c = false) it ->
  forall b a, exists b', drop_while f (b ++ it ++ a) = b' ++ it ++ a.
Proof.
  intros N F b a. induction b as [|x b IH]; cbn [app].
  - destruct it as [|y it]; [congruence|]. inversion F as [|? ? Fy _]; subst. exists []. cbn. now rewrite Fy.
  - cbn [drop_while]. destruct (f x); [exact IH|exists (x :: b); reflexivity].
Qed.
Lemma drop_part f : forall t, exists x, t = x ++ drop_while f t.
Proof.
  induction t as [|c t (x & E)]; [exists []; reflexivity|]. cbn [drop_while].
  destruct (f c); [exists (c :: x); cbn; now rewrite <- E|exists []; reflexivity].
Qed.
Lemma trim_mid it b a : it <> [] -> Forall (fun c => is_space c = false) it -> exists b' a', trim_text (b ++ it ++ a) = b' ++ it ++ a'.
Proof.
  intros N F. unfold trim_text. destruct (drop_mid is_space it N F b a) as (b' & ->).
  rewrite !rev_app_distr, <- app_assoc.
  destruct (drop_mid is_space (rev it)) with (b := rev a) (a := rev b') as (a' & ->).
  - intros E. apply N. rewrite <- (rev_involutive it), E. reflexivity.
  - now apply Forall_rev.
  - exists b', (rev a'). rewrite !rev_app_distr, !rev_involutive, <- app_assoc. reflexivity.
Qed.
Lemma trim_part t : exists x y, t = x ++ trim_text t ++ y.
Proof.
  unfold trim_text. destruct (drop_part is_space t) as (x & E). destruct (drop_part is_space (rev (drop_while is_space t))) as (y & E2).
  exists x, (rev y). rewrite <- rev_app_distr, <- E2, rev_involutive. exact E.
Qed.

Lemma map_split {A B} (f : A -> B) : forall a b l, map f l = a ++ b -> exists x y, l = x ++ y /\ map f x = a /\ map f y = b.
Proof.
  induction a as [|c a IH]; intros b l E; [exists [], l; repeat split; exact E|].
  destruct l as [|z l]; [discriminate E|]. injection E as E1 E2. destruct (IH b l E2) as (x & y & -> & Ex & Ey).
  exists (z :: x), y. repeat split; [cbn; now rewrite E1, Ex|exact Ey].
Qed.
Lemma lower_iff s : Forall (fun c => 97 <= c <= 122) s -> forall it, lower it = s <-> Forall2 same_letter s it.
Proof.
  intros F. induction F as [|c s C F IH]; intros it.
  - destruct it; split; intros H; try discriminate H; try constructor. inversion H.
  - destruct it as [|x it]; [split; intros H; [discriminate H|inversion H]|]. unfold lower in *. cbn [map]. split.
    + intros H. injection H as Hx Hi. constructor; [|now apply IH].
      unfold same_letter. destruct ((65 <=? x) && (x <=? 90)) eqn:E; lia.
    + intros H. inversion H as [|? ? ? ? Hx Hi]; subst. apply IH in Hi. rewrite Hi. f_equal.
      unfold same_letter in Hx. destruct ((65 <=? x) && (x <=? 90)) eqn:E; lia.
Qed.

Lemma select_letters : Forall (fun c => 97 <= c <= 122) (str "select").
Proof. vm_compute. repeat constructor; intros H; discriminate H. Qed.

Lemma is_select_iff w : is_select w = true <-> mentions_select w.
Proof.
  unfold is_select. rewrite holds_text_iff. split.
  - intros (a & b & E). unfold lower in E. apply map_split in E. destruct E as (x & y & Et & _ & E).
    apply map_split in E. destruct E as (it & z & -> & Ei & _). apply (lower_iff _ select_letters) in Ei.
    destruct (trim_part w) as (u & v & Ew). rewrite Et in Ew. exists (u ++ x), it, (z ++ v). split; [|exact Ei].
    rewrite Ew, <- !app_assoc. reflexivity.
  - intros (b & it & a & -> & L).
    destruct (trim_mid it b a) as (b' & a' & ->).
    + intros ->. inversion L.
    + clear - L. pose proof select_letters as F. revert F. induction L as [|s c ss cs H L IH]; intros F; constructor.
      * apply Forall_inv in F. unfold same_letter in H. unfold is_space. lia.
      * apply IH. now apply Forall_inv_tail in F.
    + apply (lower_iff _ select_letters) in L. exists (lower b'), (lower a'). unfold lower in *. rewrite !map_app, L. reflexivity.
Qed.

Lemma join_iff ws : forall t, ws <> [] -> blank_joined ws t <-> t = join [32] ws.
Proof.
  induction ws as [|w ws IH]; intros t N; [congruence|]. destruct ws as [|w2 ws].
  - cbn. split; [|intros ->; constructor]. intros H. inversion H as [|? ? ? H2]; subst; [reflexivity|inversion H2].
  - assert (N2 : w2 :: ws <> []) by discriminate. change (join [32] (w :: w2 :: ws)) with (w ++ [32] ++ join [32] (w2 :: ws)). split.
    + intros H. inversion H as [|? ? ? H2]; subst. apply IH in H2; [|exact N2]. now rewrite H2.
    + intros ->. constructor. apply IH; [exact N2|reflexivity].
Qed.

(** ** The names of the output *)
Lemma find_char_some c : forall u k, find_char c u = Some k -> exists a b, u = a ++ c :: b /\ length a = k /\ ~ In c a.
Proof.
  induction u as [|x u IH]; intros k E; cbn [find_char] in E; [discriminate E|].
  destruct (Z.eqb_spec x c) as [->|N].
  - injection E as <-. exists [], u. repeat split; auto.
  - destruct (find_char c u) as [j|]; [|discriminate E]. injection E as <-. destruct (IH j eq_refl) as (a & b & -> & L & I).
    exists (x :: a), b. repeat split; [cbn; now rewrite L|]. intros [Q|Q]; [congruence|contradiction].
Qed.
Lemma find_char_not c : forall u, find_char c u = None -> ~ In c u.
Proof.
  induction u as [|x u IH]; intros E; cbn [find_char] in E; [auto|].
  destruct (Z.eqb_spec x c); [discriminate E|]. destruct (find_char c u); [discriminate E|]. intros [Q|Q]; [congruence|now apply IH].
Qed.

Lemma skipn_more {A} b a : forall l : list A, skipn a (skipn b l) = skipn (b + a) l.
Proof. induction b as [|b IH]; intros l; [reflexivity|]. destruct l as [|x l]; [now rewrite !skipn_nil|]. cbn. apply IH. Qed.

Lemma unclosed_later p b2 : unclosed (p ++ 125 :: b2) <-> unclosed (125 :: b2).
Proof.
  split.
  - intros (x & y & E & I). revert x E. induction p as [|z p IH]; intros x E; [exists x, y; now split|].
    destruct x as [|w x].
    + cbn in E. injection E as _ E. elim I. rewrite <- E. apply in_app_iff. right. now left.
    + injection E as _ E. now apply (IH x).
  - intros (x & y & E & I). exists (p ++ x), y. split; [|exact I]. now rewrite E, <- app_assoc.
Qed.

Lemma names_from_is t : forall fuel start, (length t < start + fuel)%nat -> (0 < fuel)%nat ->
  (unclosed (skipn start t) -> names_from fuel t start = Throw UserError) /\
  (~ unclosed (skipn start t) -> exists ns, names_from fuel t start = Ok ns /\ (ns = [] <-> ~ In 123 (skipn start t))).
Proof.
  induction fuel as [|fuel IH]; intros start L Z0; [lia|]. cbn [names_from]. unfold find_from.
  destruct (find_char 123 (skipn start t)) as [k|] eqn:E; cbn [option_map].
  - destruct (find_char_some _ _ _ E) as (a & b & Eu & La & Ia).
    assert (Es : skipn (start + k) t = 123 :: b).
    { rewrite <- skipn_more, Eu, <- La. apply skipn_len. }
    rewrite Es. destruct (find_char 125 (123 :: b)) as [r|] eqn:E2; cbn [option_map].
    + destruct (find_char_some _ _ _ E2) as (a2 & b2 & Eb & La2 & Ia2).
      assert (Er : skipn (start + k + r) t = 125 :: b2).
      { rewrite <- skipn_more, Es, Eb, <- La2. apply skipn_len. }
      assert (R1 : (1 <= r)%nat). { destruct a2; [discriminate Eb|]. cbn in La2. lia. }
      assert (Ln : (start + k + r < length t)%nat).
      { destruct (Nat.lt_ge_cases (start + k + r) (length t)) as [H|H]; [exact H|]. rewrite skipn_all2 in Er by exact H. discriminate Er. }
      destruct (IH (start + k + r)%nat) as (I1 & I2); [lia|lia|]. rewrite Er in I1, I2.
      assert (U : unclosed (skipn start t) <-> unclosed (125 :: b2)).
      { rewrite Eu. replace (a ++ 123 :: b) with ((a ++ a2) ++ 125 :: b2); [apply unclosed_later|]. now rewrite <- app_assoc, <- Eb. }
      split.
      * intros H. apply U in H. now rewrite (I1 H).
      * intros H. destruct I2 as (ns & -> & _); [now rewrite <- U|]. cbn [bind]. eexists. split; [reflexivity|].
        split; [discriminate|]. intros Q. elim Q. rewrite Eu. apply in_app_iff. right. now left.
    + pose proof (find_char_not _ _ E2) as Nb. split; [reflexivity|]. intros H. elim H. exists a, b. split; [exact Eu|].
      intros Q. apply Nb. now right.
  - pose proof (find_char_not _ _ E) as N. split.
    + intros (x & y & Eu & _). elim N. rewrite Eu. apply in_app_iff. right. now left.
    + intros _. exists []. split; [reflexivity|]. tauto.
Qed.

Lemma names_is path :
  (braceless path -> template_names path = Ok []) /\
  (templated path -> exists n ns, template_names path = Ok (n :: ns)) /\
  (unclosed path -> template_names path = Throw UserError).
Proof.
  unfold template_names. destruct (names_from_is path (S (length path)) 0) as (U & N); [lia|lia|]. cbn [skipn] in U, N. repeat split.
  - intros B. destruct N as (ns & E & I). { intros (a & b & Ep & _). apply B. rewrite Ep. apply in_app_iff. right. now left. }
    rewrite E. f_equal. now apply I.
  - intros (I & B). destruct (N B) as (ns & E & Q). destruct ns as [|n ns]; [|exists n, ns; exact E]. elim (proj1 Q eq_refl I).
  - exact U.
Qed.

(** ** The tool *)
Lemma ok_inj {A} (a b : A) : Ok a = Ok b -> a = b.
Proof. congruence. Qed.

Section Sql.
Variable files : word -> option (list Z).

Lemma isset_ready taking items p o : ready items p -> Forall (fits taking) items -> In o taking ->
  exists q b, get_flag p o = Ok (q, b) /\ ready items q /\
  ((exists a, given items o a) -> b = true) /\ ((forall a, ~ In (Valued o a) items) -> b = false).
Proof.
  intros (q & E & H) Ft It. exists q. unfold get_flag. cbn [apply]. unfold query. rewrite E.
  pose proof (has_read_ready _ _ H) as R. destruct H as (_ & _ & F & G & N).
  assert (NF : contains (p_flags q) o = false).
  { destruct (contains (p_flags q) o) eqn:C; [|reflexivity]. apply contains_spec in C. apply (F o) in C.
    rewrite Forall_forall in Ft. destruct (Ft _ C) as (_ & X). now elim X. }
  rewrite NF. eexists. split; [reflexivity|]. split; [exact R|]. split.
  - intros (a & Ha). now rewrite (G o a Ha).
  - intros Ha. now rewrite (N o Ha).
Qed.

Lemma format_argument items f p : ready items p -> format_is items f ->
  exists q, get_argument p (str "-f") (str "default") = Ok (q, f) /\ ready items q.
Proof.
  intros R Fm. destruct (argument_ready _ _ (str "-f") (str "default") R) as (q & a & -> & Rq & A & D).
  exists q. split; [|exact Rq]. destruct Fm as [G|(-> & N)]; [now rewrite (A f G)|now rewrite (D N)].
Qed.

(** The text a job is given. *)
Definition text_job (first : word) (rest : list word) : outcome (list Z) :=
  if is_select first then Ok (join [32] (first :: rest) ++ [59])
  else match files (if bytes_eqb first (str "-") then str "/dev/tty" else first) with
       | Some b => Ok (b ++ [59])
       | None => Throw SeriousBug
       end.

Lemma query_given words items t first rest f o :
  reading sql_options items words -> plain_words items = t :: first :: rest -> format_is items f -> given items (str "-o") o ->
  sql_query files words =
  (do text <- text_job first rest;
   let opened := if bytes_eqb f (str "odb") then None else Some o in
   Ok {| q_text := text; q_opened := opened;
         q_sink := build_output f (if bytes_eqb o (str "-") then str "/dev/stdout" else o) opened |}).
Proof.
  intros R P Fm G. unfold sql_query. fold sql_options. pose proof (registered _ _ _ R) as Rd.
  destruct (format_argument _ _ _ Rd Fm) as (p1 & -> & R1). cbn [bind].
  destruct (argument_ready _ _ (str "-o") [] R1) as (p2 & a & -> & R2 & A & _). rewrite (A o G). clear A a. cbn [bind].
  destruct (parameters_ready _ _ R2) as (p3 & -> & R3). cbn [bind]. rewrite P. cbn [length].
  destruct (isset_ready sql_options items p3 (str "-o") R3) as (p4 & b & -> & _ & B & _); [apply R|now left|].
  rewrite B by (now exists o). cbn [bind Nat.ltb Nat.leb negb]. rewrite andb_false_r. cbn [tl]. unfold text_job.
  destruct (is_select first); [|destruct (files _)]; cbn [bind]; try reflexivity; destruct (bytes_eqb f (str "odb")); reflexivity.
Qed.

Lemma query_none words items t first rest f :
  reading sql_options items words -> plain_words items = t :: first :: rest -> format_is items f -> no_output items ->
  sql_query files words =
  (if bytes_eqb f (str "odb") then Throw UserError
   else do text <- text_job first rest; Ok {| q_text := text; q_opened := None; q_sink := build_output f [] None |}).
Proof.
  intros R P Fm G. unfold sql_query. fold sql_options. pose proof (registered _ _ _ R) as Rd.
  destruct (format_argument _ _ _ Rd Fm) as (p1 & -> & R1). cbn [bind].
  destruct (argument_ready _ _ (str "-o") [] R1) as (p2 & a & -> & R2 & _ & A). rewrite (A G). clear A a. cbn [bind].
  destruct (parameters_ready _ _ R2) as (p3 & -> & R3). cbn [bind]. rewrite P. cbn [length].
  destruct (isset_ready sql_options items p3 (str "-o") R3) as (p4 & b & -> & _ & _ & B); [apply R|now left|].
  rewrite B by exact G. cbn [bind Nat.ltb Nat.leb negb]. rewrite andb_true_r. destruct (bytes_eqb f (str "odb")); [reflexivity|].
  cbn [tl]. unfold text_job. destruct (is_select first); [|destruct (files _)]; reflexivity.
Qed.

Lemma text_job_ok first rest q : text_job first rest = Ok q -> query_text files first rest q.
Proof.
  unfold text_job. intros E. split.
  - intros M. apply is_select_iff in M. rewrite M in E. injection E as <-. exists (join [32] (first :: rest)).
    split; [|reflexivity]. apply join_iff; [discriminate|reflexivity].
  - intros M N. destruct (is_select first) eqn:S; [apply is_select_iff in S; contradiction|].
    rewrite (proj2 (bytes_eqb_neq _ _) N) in E. destruct (files first) as [b|]; [|discriminate E]. injection E as <-.
    exists b. now split.
Qed.

(** C77: the query is the words of the command line after the name of the tool, with blanks
    between them, if the first has "select" in it; otherwise the first names the file the query is
    in, and the others are ignored. *)
Theorem C77_query : forall words items t first rest f,
  reading sql_options items words -> plain_words items = t :: first :: rest -> format_is items f ->
  (f = str "odb" -> ~ no_output items) ->
  mentions_select first \/ (first <> str "-" /\ files first <> None) ->
  exists j, sql_query files words = Ok j /\ query_text files first rest (q_text j).
Proof.
  intros words items t first rest f R P Fm Od Q.
  assert (T : exists q, text_job first rest = Ok q).
  { unfold text_job. destruct Q as [M|(N & Fi)].
    - apply is_select_iff in M. rewrite M. now eexists.
    - destruct (is_select first); [now eexists|]. rewrite (proj2 (bytes_eqb_neq _ _) N).
      destruct (files first); [now eexists|congruence]. }
  destruct T as (q & T). destruct (given_or_not items (str "-o")) as [(o & G)|G].
  - rewrite (query_given _ _ _ _ _ _ _ R P Fm G), T. cbn [bind]. eexists. split; [reflexivity|]. now apply text_job_ok.
  - rewrite (query_none _ _ _ _ _ _ R P Fm G), T. destruct (bytes_eqb f (str "odb")) eqn:E.
    + apply bytes_eqb_eq in E. now elim (Od E).
    + cbn [bind]. eexists. split; [reflexivity|]. now apply text_job_ok.
Qed.

(** C77: text goes to the file given with -o, under exactly that name, and without -o to the
    standard output; no other file is touched. *)
Theorem C77_text : forall words items t first rest f j,
  reading sql_options items words -> plain_words items = t :: first :: rest -> format_is items f ->
  sql_query files words = Ok j ->
  (f = str "ascii" \/ f = str "wide" -> forall o, given items (str "-o") o ->
     q_sink j = Ok (Text (Some o)) /\ q_opened j = Some o) /\
  (f = str "ascii" \/ f = str "wide" \/ f = str "default" -> no_output items ->
     q_sink j = Ok (Text None) /\ q_opened j = None).
Proof.
  intros words items t first rest f j R P Fm J. split.
  - intros Hf o G. rewrite (query_given _ _ _ _ _ _ _ R P Fm G) in J.
    destruct (text_job first rest); cbn [bind] in J; try discriminate J. injection J as <-. cbn [q_sink q_opened].
    destruct Hf as [-> | ->]; split; reflexivity.
  - intros Hf G. rewrite (query_none _ _ _ _ _ _ R P Fm G) in J. destruct (bytes_eqb f (str "odb")); [discriminate J|].
    destruct (text_job first rest); cbn [bind] in J; try discriminate J. injection J as <-. cbn [q_sink q_opened].
    destruct Hf as [-> |[-> | ->]]; split; reflexivity.
Qed.

(** C77: with -o and the format odb, or none, the results are written as ODB: to the file named,
    or, if the name is a template, split; a brace that is not closed is refused.  If no format was
    asked for, a file of that very name is opened for text as well. *)
Theorem C77_odb : forall words items t first rest f o j,
  reading sql_options items words -> plain_words items = t :: first :: rest -> format_is items f ->
  f = str "odb" \/ f = str "default" -> given items (str "-o") o -> o <> [] -> o <> str "-" ->
  sql_query files words = Ok j ->
  (braceless o -> q_sink j = Ok (OdbFile o)) /\
  (templated o -> q_sink j = Ok (OdbSplit o)) /\
  (unclosed o -> q_sink j = Throw UserError) /\
  (f = str "odb" -> q_opened j = None) /\ (f = str "default" -> q_opened j = Some o).
Proof.
  intros words items t first rest f o j R P Fm Hf G N1 N2 J. rewrite (query_given _ _ _ _ _ _ _ R P Fm G), (proj2 (bytes_eqb_neq _ _) N2) in J.
  assert (B : forall s, build_output f o s = (do ns <- template_names o; Ok (match ns with [] => OdbFile o | _ => OdbSplit o end))).
  { intros s. unfold build_output. rewrite (proj2 (bytes_eqb_neq _ _) N1). destruct Hf as [-> | ->]; reflexivity. }
  destruct (text_job first rest) as [txt| |]; cbn [bind] in J; try discriminate J. rewrite B in J. apply ok_inj in J. subst j. cbn [q_sink q_opened].
  destruct (names_is o) as (Nb & Nt & Nu). repeat split.
  - intros H. now rewrite (Nb H).
  - intros H. destruct (Nt H) as (n & ns & ->). reflexivity.
  - intros H. now rewrite (Nu H).
  - intros ->. reflexivity.
  - intros ->. reflexivity.
Qed.

(** C77: no query, or ODB without a file, is refused before any file is opened; any other format
    when the results are to go somewhere, after the file was opened. *)
Theorem C77_refused : forall words items f,
  reading sql_options items words -> format_is items f ->
  ((length (plain_words items) < 2)%nat -> sql_query files words = Throw UserError) /\
  (f = str "odb" -> no_output items -> sql_query files words = Throw UserError) /\
  (~ In f (map str ["odb"; "default"; "ascii"; "wide"]%string) -> forall j, sql_query files words = Ok j ->
     q_sink j = Throw NotImplemented /\ forall o, given items (str "-o") o -> q_opened j = Some o).
Proof.
  intros words items f R Fm.
  assert (Short : (length (plain_words items) < 2)%nat -> sql_query files words = Throw UserError).
  { intros L. unfold sql_query. fold sql_options. pose proof (registered _ _ _ R) as Rd.
    destruct (format_argument _ _ _ Rd Fm) as (p1 & -> & R1). cbn [bind].
    destruct (argument_ready _ _ (str "-o") [] R1) as (p2 & a & -> & R2 & _ & _). cbn [bind].
    destruct (parameters_ready _ _ R2) as (p3 & -> & R3). cbn [bind].
    destruct (Nat.ltb_spec (length (plain_words items)) 2); [reflexivity|lia]. }
  split; [exact Short|]. destruct (plain_words items) as [|t [|first rest]] eqn:P.
  1, 2: split; [intros _ _; apply Short; cbn; lia|intros _ j J; rewrite Short in J by (cbn; lia); discriminate J].
  split.
  - intros -> G. now rewrite (query_none _ _ _ _ _ _ R P Fm G).
  - intros N j J.
    assert (B : forall path s, build_output f path s = Throw NotImplemented).
    { intros path s. unfold build_output. cbn [map In] in N.
      rewrite (proj2 (bytes_eqb_neq f (str "default"))) by (intros ->; tauto).
      rewrite (proj2 (bytes_eqb_neq f (str "wide"))) by (intros ->; tauto).
      rewrite (proj2 (bytes_eqb_neq f (str "ascii"))) by (intros ->; tauto).
      rewrite (proj2 (bytes_eqb_neq f (str "odb"))) by (intros ->; tauto). reflexivity. }
    assert (F0 : bytes_eqb f (str "odb") = false) by (apply bytes_eqb_neq; intros ->; cbn [map In] in N; tauto).
    destruct (given_or_not items (str "-o")) as [(o & G)|G].
    + pose proof J as J0. rewrite (query_given _ _ _ _ _ _ _ R P Fm G), F0 in J.
      destruct (text_job first rest); cbn [bind] in J; try discriminate J. injection J as <-. cbn [q_sink q_opened].
      split; [apply B|]. intros o' G'. rewrite (query_given _ _ _ _ _ _ _ R P Fm G'), F0 in J0.
      destruct (text_job first rest); cbn [bind] in J0; try discriminate J0. now injection J0 as _ ->.
    + rewrite (query_none _ _ _ _ _ _ R P Fm G), F0 in J.
      destruct (text_job first rest); cbn [bind] in J; try discriminate J. injection J as <-. cbn [q_sink q_opened].
      split; [apply B|]. intros o G'. elim (G o). now apply given_in.
Qed.
End Sql.

Print Assumptions C77_query.
Print Assumptions C77_text.
Print Assumptions C77_odb.
Print Assumptions C77_refused.
