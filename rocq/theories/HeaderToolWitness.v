(** Concrete cases for C67. *)
From Coq Require Import String.
From Verif Require Import Spec Base Fp Stream Codec Meta Header Encoder Table Reader ReadSpec Quick Through Scan ScanSpec
  ScanWitness DispatchSpec HeaderTool HeaderToolSpec P_HeaderTool P_HeaderText.
Open Scope Z_scope.

(** A frame of a bitfield with the given members and a text. *)
Definition ddl_cols (nm : string) (bits : list (list Z * Z)) : list colinfo :=
  [{| ci_name := str nm; ci_type := ty_BITFIELD; ci_size := 8; ci_bits := bits |};
   {| ci_name := str "text"; ci_type := ty_STRING; ci_size := 8; ci_bits := [] |}].
Definition ddl_frame (nm : string) (bits : list (list Z * Z)) (v : Z) : list Z :=
  match encode_frame quick odc_tag doubles LE (ddl_cols nm bits)
          [{| cd_size := 8; cd_cells := [le_bytes 8 v] |}; {| cd_size := 8; cd_cells := [le_bytes 8 97] |}] [] with
  | Ok b => b | _ => [] end.

Definition ga : list Z * table := Eval vm_compute in with_table (ddl_frame "bits@hdr" [(str "a", 1); (str "b", 12)] 0).
Definition gb : list Z * table := Eval vm_compute in with_table (ddl_frame "bits@hdr" [(str "a", 1); (str "c", 3)] 0).

Definition declarableb (c : column) : bool :=
  let plain := forallb (fun c => negb (c =? 10) && negb (c =? 32) && negb (c =? 44)) in
  plain (col_name c) &&
  ((col_type c =? ty_STRING) || (col_type c =? ty_INTEGER) || (col_type c =? ty_REAL) || (col_type c =? ty_DOUBLE) ||
   ((col_type c =? ty_BITFIELD) && forallb plain (col_bfnames c) &&
    forallb (fun z => (- 2 ^ 31 <=? z) && (z <? 2 ^ 31)) (col_bfsizes c) &&
    (List.length (col_bfnames c) =? List.length (col_bfsizes c))%nat)).

Lemma plainb_ok n : forallb (fun c => negb (c =? 10) && negb (c =? 32) && negb (c =? 44)) n = true -> plain_name n.
Proof.
  intros H. unfold plain_name. apply Forall_forall. intros x Hx. rewrite forallb_forall in H. specialize (H x Hx). lia.
Qed.
Lemma declarableb_ok c : declarableb c = true -> declarable c.
Proof.
  unfold declarableb, declarable. cbv zeta. intros H. apply andb_prop in H as [H1 H2]. split; [now apply plainb_ok|].
  rewrite !orb_true_iff, !andb_true_iff, !Z.eqb_eq in H2. destruct H2 as [[[[H|H]|H]|H]|[[[H A] B] C]]; auto.
  right. right. right. right. split; [exact H|]. split; [|split].
  - apply Forall_forall. intros n Hn. rewrite forallb_forall in A. apply plainb_ok. now apply A.
  - apply Forall_forall. intros n Hn. rewrite forallb_forall in B. specialize (B n Hn). unfold int32. lia.
  - now apply Nat.eqb_eq.
Qed.

(** The hypotheses of C67_offsets, _ddl and _readable, for a file of three frames of which the first
    two are alike. *)
Theorem C67_witness :
  made_of quick doubles [ga; ga; fa] /\ Z.of_nat (List.length (bytes_of [ga; ga; fa])) < 2 ^ 63 /\
  Forall (fun p => 0 <= t_rows (snd p) < 2 ^ 63 /\ Z.of_nat (List.length (t_cols (snd p))) < 2 ^ 63) [ga; ga; fa] /\
  Forall (fun p => Forall declarable (t_cols (snd p))) [ga; ga; fa] /\
  one_line (str "data.odb") /\ plain_name (str "hdr").
Proof.
  assert (D : forall p, In p [ga; fa] -> frame quick doubles (fst p) (snd p) /\
    (0 <= t_rows (snd p) < 2 ^ 63 /\ Z.of_nat (List.length (t_cols (snd p))) < 2 ^ 63) /\ Forall declarable (t_cols (snd p))).
  { intros p [<-|[<-|[]]]; (split; [apply a_frame; vm_compute; reflexivity|]; split; [vm_compute; intuition discriminate|]);
      apply Forall_forall; intros c Hc; apply declarableb_ok;
      (assert (F : forallb declarableb (t_cols (snd ga)) = true /\ forallb declarableb (t_cols (snd fa)) = true)
        by (vm_compute; auto)); destruct F as [F1 F2]; rewrite forallb_forall in F1, F2; first [exact (F1 c Hc)|exact (F2 c Hc)]. }
  assert (L : forall p, In p [ga; ga; fa] -> In p [ga; fa]) by (cbn [In]; tauto).
  split; [apply Forall_forall; intros p Hp; apply L, D in Hp; tauto|].
  split; [vm_compute; reflexivity|].
  split; [apply Forall_forall; intros p Hp; apply L, D in Hp; tauto|].
  split; [apply Forall_forall; intros p Hp; apply L, D in Hp; tauto|].
  split; [intros H; vm_compute in H; intuition discriminate|]. apply plainb_ok. reflexivity.
Qed.

Definition nl : string := String (Ascii.ascii_of_nat 10) EmptyString.

(** By evaluation: both outputs. *)
Theorem C67_computed :
  let file := bytes_of [ga; ga; fa] in
  header_ddl quick doubles file (str "data.odb") (str "hdr") 4 =
  Ok (str ("CREATE TYPE bits_at_hdr_t AS (a bit1, b bit12);" ++ nl ++
           "CREATE TABLE hdr AS (" ++ nl ++ "  bits bits_at_hdr_t," ++ nl ++ "  text STRING," ++ nl ++ ") ON 'data.odb';" ++ nl ++
           "CREATE TABLE hdr AS (" ++ nl ++ "  x DOUBLE," ++ nl ++ ") ON 'data.odb';" ++ nl)) /\
  header_offsets quick doubles (fst fa ++ fst fa) 3 =
  Ok (str ("0 " ++ "205 3 1" ++ nl ++ "205 " ++ "205 3 1" ++ nl)).
Proof. vm_compute. split; reflexivity. Qed.

(** What the declarations do not show: frames that differ in the members of a bitfield only are
    declared as one table, with the members of the first. *)
Theorem C67_members_refuted :
  header_ddl quick doubles (bytes_of [ga; gb]) (str "p") (str "hdr") 3 =
  header_ddl quick doubles (bytes_of [ga]) (str "p") (str "hdr") 3 /\
  map col_bfnames (t_cols (snd ga)) <> map col_bfnames (t_cols (snd gb)).
Proof. vm_compute. split; [reflexivity|discriminate]. Qed.

(** And a name that is in the file both with and without the name of the table is declared twice. *)
Theorem C67_names_refuted :
  let c nm := {| col_name := nm; col_type := ty_REAL; col_bfnames := []; col_bfsizes := [];
                 col_coder := new_codec true LE KLongReal ty_REAL |} in
  print_table (str "p") (str "hdr") [c (str "lat@hdr")] = print_table (str "p") (str "hdr") [c (str "lat")].
Proof. vm_compute. reflexivity. Qed.
