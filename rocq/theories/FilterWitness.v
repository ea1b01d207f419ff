(** C62: concrete queries, and what does not hold. *)
From Coq Require Import Lia.
From Verif Require Import Base Fp Stream Codec Meta Header Encoder Table Reader ReadSpec Quick Through RowReader RowList WriterSpec Spec OdaOut OdaSpec SelectOut SelectSpec SelectWitness
  Filter FilterSpec P_Filter P_FilterRows P_FilterFrame.
Open Scope Z_scope.

(** A number and a text; the text of the first row is longer than eight bytes, that of the second is not. *)
Definition two_rows : query := {| qy_cols := wide; qy_at := 1000;
  qy_rows := [{| q_types := []; q_vals := vals1 |}; {| q_types := []; q_vals := vals2 |}] |}.
(** The same rows and two more, after the columns were announced anew. *)
Definition four_rows : query := {| qy_cols := wide; qy_at := 1000;
  qy_rows := qy_rows two_rows ++ [{| q_types := [(narrow, 2000)]; q_vals := vals2 |}; {| q_types := []; q_vals := vals2 |}] |}.
(** Texts of one double only. *)
Definition short_rows : query := {| qy_cols := narrow; qy_at := 1000;
  qy_rows := [{| q_types := []; q_vals := vals2 |}; {| q_types := [(narrow, 3000)]; q_vals := [ONumber d_one false; OText [65; 66; 67] 3 false] |}] |}.

Lemma runs_any q : Forall (fun r => forallb (fun t => match fst t with [] => false | _ => true end) (q_types r) = true /\ Forall (fun t => Forall accepted (map fst (fst t))) (q_types r)) (qy_rows q) ->
  qy_cols q <> [] -> Forall accepted (map fst (qy_cols q)) ->
  Forall (fun r => Forall2 typed (fst r) (snd r) /\ Forall2 room (fst r) (snd r) /\ Forall held (snd r)) (answer q) -> runs q.
Proof.
  intros T N A R. split; [split; assumption| |exact R]. apply Forall_forall. intros r Hr. rewrite Forall_forall in T. destruct (T r Hr) as [T1 T2].
  apply Forall_forall. intros t Ht. rewrite Forall_forall in T2. rewrite forallb_forall in T1. split; [|apply T2; exact Ht].
  intros E. specialize (T1 t Ht). rewrite E in T1. discriminate.
Qed.

Lemma writable_s n : 1 <= n -> 8 * n < 2 ^ 31 -> writable_columns [column_d; {| ci_name := [115]; ci_type := ty_STRING; ci_size := 8 * n; ci_bits := [] |}] [].
Proof.
  intros H1 H2. split.
  - discriminate.
  - vm_compute. reflexivity.
  - constructor; [intros [Q|[]]; vm_compute in Q; discriminate Q|]. constructor; [intros []|constructor].
  - constructor; [discriminate|]. constructor; [discriminate|constructor].
  - constructor; [left; split; [right; right; reflexivity|reflexivity]|]. constructor; [right; split; [reflexivity|exists n; cbn [ci_size]; lia]|constructor].
  - constructor; [split; [vm_compute; reflexivity|intros Q; discriminate Q]|]. constructor; [split; [vm_compute; reflexivity|intros Q; discriminate Q]|constructor].
  - split; [constructor|]. split; [vm_compute; reflexivity|constructor].
Qed.

Lemma ordinary_d v : v = 0 \/ v = d_one \/ v = realMDI -> ordinary st1 column_d (le_bytes 8 v).
Proof. intros Hv. apply or_double; try reflexivity; destruct Hv as [-> |[-> | ->]]; vm_compute; repeat split; congruence. Qed.
Lemma ordinary_s n t : 1 <= n -> 8 * n < 2 ^ 31 -> len t = 8 * n -> forallb (fun b => (0 <=? b) && (b <? 256)) t = true ->
  ordinary st1 {| ci_name := [115]; ci_type := ty_STRING; ci_size := 8 * n; ci_bits := [] |} t.
Proof.
  intros H1 H2 H3 H4. apply (or_string st1 _ n); auto. rewrite forallb_forall in H4. apply Forall_forall. intros b Hb. specialize (H4 b Hb). unfold is_byte. lia.
Qed.

Ltac row_runs := split; [|split]; (constructor; [|constructor; [|constructor]]); cbn; try exact Logic.I; try (split; [discriminate|vm_compute; split; congruence]); try (split; [reflexivity|lia]); try lia; try (intros _; vm_compute; discriminate).

Lemma runs_four : runs four_rows.
Proof.
  apply runs_any; [|discriminate|apply accepted_wide|].
  - repeat (constructor; [split; [reflexivity|]|]); try constructor; [apply accepted_narrow|constructor].
  - change (answer four_rows) with [(map fst wide, vals1); (map fst wide, vals2); (map fst narrow, vals2); (map fst narrow, vals2)].
    repeat (constructor; [cbn [fst snd]; row_runs|]). constructor.
Qed.

Lemma filterable_four N : (N <= 100)%nat -> filterable st1 N [] four_rows.
Proof.
  intros HN. apply C62_ordinary.
  - intros cs Hc. change (map fst (qy_cols four_rows) :: map fst (answer four_rows)) with [map fst wide; map fst wide; map fst wide; map fst narrow; map fst narrow] in Hc.
    assert (cs = map fst wide \/ cs = map fst narrow) as X by (cbn [In] in Hc; intuition auto). clear Hc.
    assert (SM : forall n, 1 <= n <= 10 -> WriterSpec.small (Z.of_nat N) [column_d; {| ci_name := [115]; ci_type := ty_STRING; ci_size := 8 * n; ci_bits := [] |}] []).
    { intros n Hn. unfold WriterSpec.small, total. cbn [map fold_right ci_name ci_bits ci_size column_d len length Z.of_nat Pos.of_succ_nat]. nia. }
    destruct X as [-> | ->]; [split; [apply (writable_s 2)|apply (SM 2)]|split; [apply (writable_s 1)|apply (SM 1)]]; lia.
  - intros r Hr. change (answer four_rows) with [(map fst wide, vals1); (map fst wide, vals2); (map fst narrow, vals2); (map fst narrow, vals2)] in Hr.
    assert (r = (map fst wide, vals1) \/ r = (map fst wide, vals2) \/ r = (map fst narrow, vals2)) as X by (cbn [In] in Hr; intuition auto). clear Hr.
    destruct X as [-> | [-> | ->]]; cbn [fst]; (split; [first [apply accepted_wide|apply accepted_narrow]|]).
    + constructor; [apply ordinary_d; auto|]. constructor; [apply (ordinary_s 2); vm_compute; intuition congruence|constructor].
    + constructor; [apply (ordinary_d realMDI); auto|]. constructor; [apply (ordinary_s 2); vm_compute; intuition congruence|constructor].
    + constructor; [apply (ordinary_d realMDI); auto|]. constructor; [apply (ordinary_s 1); vm_compute; intuition congruence|constructor].
Qed.

(** Columns announced anew: filter writes the four rows, but they are no single frame. *)
Theorem C62_witness :
  runs four_rows /\ filterable st1 2 [] four_rows /\ length (answer four_rows) = 4%nat /\
  let r := filter_query quick st1 2 [] blank four_rows in
  match r with
  | Ok (out, n) => n = 4 /\ map snd (fst (file_rows quick st1 (fun _ _ => []) 9 out)) =
      [[le_bytes 8 d_one; pad 16 [65; 66; 67; 68; 69; 70; 71; 72; 73]]; [le_bytes 8 realMDI; pad 16 [65]]; [le_bytes 8 realMDI; pad 8 [65]]; [le_bytes 8 realMDI; pad 8 [65]]]
  | _ => False
  end.
Proof. split; [apply runs_four|]. split; [apply filterable_four; lia|]. split; [reflexivity|]. vm_compute. split; reflexivity. Qed.
Print Assumptions C62_witness.

(** Two rows of the same columns, in two frames: the query is carried out and its rows are
    written, but Frame::filter raises: the frames read back have columns of different widths. *)
Lemma runs_two : runs two_rows.
Proof.
  apply runs_any; [|discriminate|apply accepted_wide|].
  - repeat (constructor; [split; [reflexivity|constructor]|]). constructor.
  - change (answer two_rows) with [(map fst wide, vals1); (map fst wide, vals2)].
    repeat (constructor; [cbn [fst snd]; row_runs|]). constructor.
Qed.
Lemma filterable_two N : (N <= 100)%nat -> filterable st1 N [] two_rows.
Proof.
  intros HN. destruct (filterable_four N HN) as [A B]. split.
  - intros cs Hc. apply A. change (In cs [map fst wide; map fst wide; map fst wide]) in Hc.
    change (In cs [map fst wide; map fst wide; map fst wide; map fst narrow; map fst narrow]). cbn [In] in *. tauto.
  - intros cs part Hc Hne Hl Hp. apply B; auto.
    + change (In cs [map fst wide; map fst wide]) in Hc. change (In cs [map fst wide; map fst wide; map fst narrow; map fst narrow]). cbn [In] in *. tauto.
    + intros row Hr. destruct (Hp row Hr) as (r & Hi & X). exists r. split; [|exact X].
      change (In r [(map fst wide, vals1); (map fst wide, vals2)]) in Hi. change (In r [(map fst wide, vals1); (map fst wide, vals2); (map fst narrow, vals2); (map fst narrow, vals2)]). cbn [In] in *. tauto.
Qed.

Theorem C62_widths_refuted :
  runs two_rows /\ filterable st1 1 [] two_rows /\
  (forall r1 r2, In r1 (answer two_rows) -> In r2 (answer two_rows) -> fst r1 = fst r2) /\
  (match filter_query quick st1 1 [] blank two_rows with Ok (_, n) => n = 2 | _ => False end) /\
  filter_frame quick st1 1 [] (fun _ => 0) blank two_rows = Throw AssertFailed.
Proof.
  split; [apply runs_two|]. split; [apply filterable_two; lia|]. split.
  { change (answer two_rows) with [(map fst wide, vals1); (map fst wide, vals2)]. intros r1 r2 [<-|[<-|[]]] [<-|[<-|[]]]; reflexivity. }
  split; vm_compute; reflexivity.
Qed.
Print Assumptions C62_widths_refuted.

(** Texts of one double: one frame, of two tables. *)
Theorem C62_one_witness :
  runs short_rows /\ (forall r1 r2, In r1 (answer short_rows) -> In r2 (answer short_rows) -> map face (fst r1) = map face (fst r2)) /\
  (forall r, In r (answer short_rows) -> Forall (fun ci => ci_size ci = 8) (fst r)) /\ filterable st1 1 [] short_rows /\
  match filter_frame quick st1 1 [] (fun _ => 0) blank short_rows with
  | Ok (out, Some ts) => map t_rows ts = [1; 1] /\
      (* the length the handle gives is that of the first table *)
      match serial_open out ts with Ok (_, n) => n < Z.of_nat (length out) | _ => False end
  | _ => False
  end.
Proof.
  assert (A : answer short_rows = [(map fst narrow, vals2); (map fst narrow, [ONumber d_one false; OText [65; 66; 67] 3 false])]) by reflexivity.
  split; [|split; [|split; [|split]]].
  - apply runs_any; [|discriminate|apply accepted_narrow|].
    + constructor; [split; [reflexivity|constructor]|]. constructor; [split; [reflexivity|]|constructor]. constructor; [apply accepted_narrow|constructor].
    + rewrite A. repeat (constructor; [cbn [fst snd]; row_runs|]). constructor.
  - rewrite A. intros r1 r2 [<-|[<-|[]]] [<-|[<-|[]]]; reflexivity.
  - rewrite A. intros r [<-|[<-|[]]]; repeat constructor.
  - apply C62_ordinary; rewrite A.
    + intros cs Hc. assert (cs = map fst narrow) as -> by (cbn [map fst In] in Hc; intuition auto). split; [apply (writable_s 1); lia|].
      unfold WriterSpec.small, total. vm_compute. intuition congruence.
    + intros r [<-|[<-|[]]]; (split; [apply accepted_narrow|]).
      * constructor; [apply (ordinary_d realMDI); auto|]. constructor; [apply (ordinary_s 1); vm_compute; intuition congruence|constructor].
      * constructor; [apply ordinary_d; auto|]. constructor; [apply (ordinary_s 1); vm_compute; intuition congruence|constructor].
  - vm_compute. split; reflexivity.
Qed.
Print Assumptions C62_one_witness.

(** A text that does not fit its column, in the second row: nothing is returned. *)
Definition long_row : query := {| qy_cols := narrow; qy_at := 1000;
  qy_rows := [{| q_types := []; q_vals := [ONumber d_one false; OText [65; 66] 2 false] |};
              {| q_types := []; q_vals := [ONumber d_one false; OText (repeat 65 9) 9 false] |}] |}.
Theorem C62_refuses_witness : filter_query quick st1 3 [] (fun _ => 0) long_row = Throw SeriousBug.
Proof. vm_compute. reflexivity. Qed.
