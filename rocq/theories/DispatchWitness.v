(** Concrete cases for C44, and counterexamples. *)
From Coq Require Import String.
From Verif Require Import Spec Base Fp Stream Codec Meta Header Encoder Table Reader ReadSpec
  StreamLocal StreamProofs Quick Through P_Frame Writer RowReader RowList WriterSpec OrdinaryProofs EncodeWitness WriterWitness
  Comparator CompareWitness Copy CopySpec P_Copy CopyWitness P_Tables Dispatcher DispatchSpec P_DispatchOne P_Dispatch.
Open Scope Z_scope.
Local Notation length := List.length.

(** Four rows for three files, one of which has to be closed and reopened if only two may
    be open. *)
Definition drow (s : string) (d : Z) : action := Row [pad 8 (str s); le_bytes 8 d].
Definition dfile : list Z := file_of doubles 4 ccols [drow "a" pi; drow "b" d_one; drow "c" pi; drow "a" d_one].
Definition drows : list arow := Eval vm_compute in fst (file_rows quick doubles noise 9 dfile).
Definition dtemplate : list Z := str "o_{s}.odb".
(** the text of the first cell *)
Definition text_cell (r : arow) : list Z := filter (fun z => negb (z =? 0)) (hd [] (snd r)).
Definition droute (r : arow) : list Z := str "o_" ++ text_cell r ++ str ".odb".
Definition blank : disk := {| files := fun _ => None; dirs := fun _ => false |}.

Definition drows_ok : bool :=
  forallb (fun r => (if list_eq_dec colinfo_dec (map info (fst r)) ccols then true else false) && forallb copyableb (fst r) &&
    both (ordinaryb doubles) (map info (fst r)) (snd r)) drows.

Lemma first_cell : forall r, In r drows -> exists c0 c1 x y ch, r = ([c0; c1], [x; y]) /\ col_name c0 = str "s" /\ col_name c1 = str "d" /\ col_type c0 = ty_STRING /\
  x = [ch] ++ repeat 0 7 /\ 97 <= ch <= 99.
Proof.
  intros r H. unfold drows in H. cbn [In] in H. destruct H as [H|[H|[H|[H|[]]]]]; subst r; eexists _, _, _, _, _; (split; [reflexivity|]); (split; [reflexivity|]); (split; [reflexivity|]); (split; [reflexivity|]);
    (split; [reflexivity|]); lia.
Qed.

Lemma droutes : routed dtemplate drows droute.
Proof.
  apply (C44_text (str "o_") (str "s") (str ".odb") drows text_cell); try (cbn; intuition discriminate).
  intros r Hr. destruct (first_cell r Hr) as (c0 & c1 & x & y & ch & -> & N0 & N1 & T & -> & B). exists O, c0, ([ch] ++ repeat 0 7), (repeat 0 7).
  assert (E : text_cell ([c0; c1], [[ch] ++ repeat 0 7; y]) = [ch]) by (unfold text_cell; cbn [snd hd app repeat filter]; destruct (Z.eqb_spec ch 0); [lia|reflexivity]).
  split; [|split; [intros j cell Q; lia|split; [exact T|]]].
  - split; [|split; reflexivity]. intros j. unfold positions. cbn [fst snd]. rewrite <- N0. split.
    + intros (c & A & E2). destruct j as [|[|j]]; [reflexivity| |destruct j; discriminate]. exfalso. cbn in A. assert (c = c1) by congruence. subst c. rewrite N0, N1 in E2. destruct E2 as [E2|(rest & E2)]; discriminate.
    + intros ->. exists c0. split; [reflexivity|]. now left.
  - rewrite E. split; [reflexivity|]. split; [reflexivity|]. split; [repeat constructor|]. split; [constructor; [unfold printable; lia|constructor]|].
    split; [cbn; lia|]. split; [cbn; lia|]. cbn. lia.
Qed.

(** The hypotheses of [C44_split] hold, whether two or three files may be open. *)
Theorem C44_witness :
  drows <> [] /\ (forall f, (length drows < f)%nat -> file_rows quick doubles noise f dfile = (drows, Clean)) /\
  rows_copyable doubles 3 [] drows /\ routed dtemplate drows droute /\
  map droute drows = [str "o_a.odb"; str "o_b.odb"; str "o_c.odb"; str "o_a.odb"] /\
  few 3 (map droute drows) /\ ~ few 2 (map droute drows) /\
  (forall n, files blank n = None) /\ (forall n, In n (map droute drows) -> forall d, ~ in_directory n d).
Proof.
  assert (H : drows_ok = true) by (vm_compute; reflexivity).
  assert (X : forall r, In r drows -> map info (fst r) = ccols /\ Forall copyable (fst r) /\ Forall2 (ordinary doubles) (map info (fst r)) (snd r)).
  { intros r I. unfold drows_ok in H. rewrite forallb_forall in H. specialize (H r I). apply andb_true_iff in H as (H & H3). apply andb_true_iff in H as (H1 & H2).
    split; [destruct (list_eq_dec colinfo_dec (map info (fst r)) ccols); [assumption|discriminate]|]. split; [|exact (both_ok _ _ (ordinaryb_ok doubles) _ _ H3)].
    rewrite forallb_forall in H2. apply Forall_forall. intros c Hc. apply copyableb_ok. now apply H2. }
  clear H. assert (M : map droute drows = [str "o_a.odb"; str "o_b.odb"; str "o_c.odb"; str "o_a.odb"]) by reflexivity.
  split; [discriminate|]. split; [|split; [|split; [apply droutes|split; [exact M|]]]].
  - intros f L. apply (any_fuel _ _ 9); [|exact L]. vm_compute. reflexivity.
  - apply C49_ordinary.
    + intros cs Hc. apply in_map_iff in Hc as (r & <- & Hr). destruct (X r Hr) as (-> & C & _).
      split; [apply ccols_ok|]. split; [exact C|]. unfold small. vm_compute. auto.
    + intros cs row Hr. apply (X _ Hr).
  - rewrite M. split; [|split; [|split; [reflexivity|]]].
    + exists [str "o_a.odb"; str "o_b.odb"; str "o_c.odb"]. split; [|cbn; lia]. intros x Q. cbn [In] in Q. destruct Q as [<-|[<-|[<-|[<-|[]]]]]; cbn; auto.
    + intros (l & I & L). assert (3 <= length l)%nat; [|lia].
      apply (NoDup_incl_length (l := [str "o_a.odb"; str "o_b.odb"; str "o_c.odb"])).
      * repeat constructor; cbn; intuition discriminate.
      * intros x Q. apply I. cbn [In] in *. destruct Q as [<-|[<-|[<-|[]]]]; auto.
    + intros n Q. cbn [In] in Q. destruct Q as [<-|[<-|[<-|[<-|[]]]]]; intros d (rest & E & _);
        apply (f_equal (existsb (Z.eqb 47))) in E; rewrite !existsb_app in E; cbn [existsb Z.eqb Pos.eqb] in E; rewrite orb_true_l, orb_true_r in E; vm_compute in E; discriminate E.
Qed.

(** So with two files open at most, the split gives three files; the first has two rows. *)
Theorem C44_witness_split : exists k', split_file quick doubles 3 dtemplate 2 noise 9 false blank dfile = Ok k' /\
  (forall n, files k' n <> None -> In n [str "o_a.odb"; str "o_b.odb"; str "o_c.odb"]) /\
  exists new rows' r1 r4, files k' (str "o_a.odb") = Some new /\ file_rows quick doubles noise 9 new = (rows', Clean) /\
    nth_error drows 0 = Some r1 /\ nth_error drows 3 = Some r4 /\ Forall2 (copied doubles doubles) [r1; r4] rows'.
Proof.
  destruct C44_witness as (W1 & W2 & W3 & W4 & W5 & _ & _ & W6 & W7).
  destruct (C44_split quick doubles doubles 3 2 noise dfile drows dtemplate droute false blank quick_length ltac:(lia) ltac:(lia) W1 W2 W3 W4) with (fuel := 9%nat) as (k' & K1 & K2 & K3).
  - right. left. intros n _. apply W6.
  - right. intros n d Hn E. destruct (W7 n Hn d E).
  - change (length drows) with 4%nat. lia.
  - exists k'. split; [exact K1|]. split.
    + intros n Hn. destruct (in_dec (list_eq_dec Z.eq_dec) n (map droute drows)) as [Q|Q].
      * rewrite W5 in Q. cbn [In] in *. destruct Q as [<-|[<-|[<-|[<-|[]]]]]; auto.
      * rewrite (K2 n Q), (W6 n) in Hn. congruence.
    + destruct (K3 (str "o_a.odb")) as (new & A1 & A2); [rewrite W5; now left|].
      destruct (A2 noise) as (rows' & B1 & B2). exists new, rows', (nth 0 drows ([], [])), (nth 3 drows ([], [])). split; [exact A1|]. split; [apply B2; change (length drows) with 4%nat; lia|].
      split; [reflexivity|]. split; [reflexivity|]. exact B1.
Qed.

(** ** What does not hold *)
Definition with_file (n c : list Z) : disk := put blank n c.
Definition file_in (o : outcome disk) (n : list Z) : option (list Z) := match o with Ok k => files k n | _ => None end.
Definition rows_in (st : settings) (o : option (list Z)) : list (list (list Z)) :=
  match o with Some f => map snd (fst (file_rows quick st noise 9 f)) | None => [] end.

(** A file that exists is replaced by the split; but once a file of the split has been
    closed and opened again, a file that exists is appended to. *)
Definition tfile : list Z := file_of doubles 4 [wcol "s" ty_STRING 8] (map (fun s => Row [pad 8 (str s)]) ["a"; "b"; "a"; "c"]%string).
Theorem C44_replaced_refuted :
  let run c := match file_in (split_file quick doubles 3 (str "{s}") 1 noise 9 false (with_file c [1; 2; 3]) tfile) c with
               | Some (x :: y :: z :: _) => [x; y; z] | _ => [] end in
  run (str "c") = [1; 2; 3] /\ run (str "b") <> [1; 2; 3].
Proof. vm_compute. split; [reflexivity|discriminate]. Qed.

(** Numbers that have the same integer part, but are not equal, share a file and lose their
    order. *)
Definition d_125 : Z := 4608308318706860032.       (* 1.25 *)
Definition d_15 : Z := 4609434218613702656.        (* 1.5 *)
Definition ffile : list Z := file_of doubles 4 [wcol "d" ty_DOUBLE 8] (map (fun d => Row [le_bytes 8 d]) [d_15; d_125; d_15]).
Theorem C44_fraction_refuted :
  rows_in doubles (file_in (split_file quick doubles 3 (str "o{d}") 5 noise 9 false blank ffile) (str "o1")) =
    [[le_bytes 8 d_15]; [le_bytes 8 d_15]; [le_bytes 8 d_125]].
Proof. vm_compute. reflexivity. Qed.

(** The name comes from the wrong cell if a wide string precedes the column. *)
Definition wfile : list Z := file_of doubles 4 [wcol "w" ty_STRING 16; wcol "s" ty_STRING 8] [Row [pad 16 (str "12345678wide"); pad 8 (str "key")]].
Theorem C44_offset_refuted :
  let k := split_file quick doubles 3 (str "{s}") 5 noise 9 false blank wfile in
  file_in k (str "key") = None /\ rows_in doubles (file_in k (str "wide")) = [[pad 16 (str "12345678wide"); pad 8 (str "key")]].
Proof. vm_compute. split; reflexivity. Qed.

(** A NaN in the column is undefined behaviour; a "/" takes characters with it. *)
Definition nfile : list Z := file_of doubles 4 [wcol "d" ty_DOUBLE 8] [Row [le_bytes 8 qnan]].
Definition sfile2 : list Z := file_of doubles 4 [wcol "s" ty_STRING 8] [Row [pad 8 (str "ab/cdef")]].
Theorem C44_values_refuted :
  match split_file quick doubles 3 (str "{d}") 5 noise 9 false blank nfile with UB => true | _ => false end = true /\
  rows_in doubles (file_in (split_file quick doubles 3 (str "{s}") 5 noise 9 false blank sfile2) (str "ab__SLASH__ef")) = [[pad 8 (str "ab/cdef")]].
Proof. vm_compute. split; reflexivity. Qed.

(** When appending, a missing directory is not made: the split fails. *)
Definition ofile : list Z := file_of doubles 4 [wcol "s" ty_STRING 8] [Row [pad 8 (str "x")]].
Theorem C44_directory_refuted :
  let run append := match split_file quick doubles 3 (str "d/{s}") 5 noise 9 append blank ofile with Ok _ => true | _ => false end in
  run false = true /\ run true = false.
Proof. vm_compute. split; reflexivity. Qed.
