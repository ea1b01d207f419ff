(** Concrete cases for C64. *)
From Coq Require Import String.
From Verif Require Import CsvRows Api Spec Base Fp Stream Codec Meta Header Encoder Table Reader ReadSpec RowList Quick Through Writer WriterSpec RowReader Copy Scan ScanSpec P_Scan ScanWitness Index IndexSpec P_Index.
Open Scope Z_scope.
Local Notation length := List.length.

(** Six rows in two blocks; seqno 3 occurs in both. *)
Definition six (f : list Z) : outcome (list Z) := if bytes_eqb f (fst fa) then Ok [7; 7; 3] else Ok [3; -1].

Theorem C64_witness : made_of quick doubles [fa; fb] /\ Forall2 (fun p vs => six (fst p) = Ok vs) [fa; fb] [[7; 7; 3]; [3; -1]] /\
  Forall (fun vs => Forall int32 vs /\ len vs < 2 ^ 31) [[7; 7; 3]; [3; -1]] /\ len (bytes_of [fa; fb]) < 2 ^ 31 /\
  total (fun kv => 8 + len (fst kv) + len (snd kv)) ([] : props) < 2 ^ 30 /\ Forall grouped [[7; 7; 3]; [3; -1]] /\
  index_of 0 (map fst [fa; fb]) [[7; 7; 3]; [3; -1]]
    [{| e_begin := 0; e_length := len (fst fa); e_seqno := 7; e_rows := 2 |};
     {| e_begin := 0; e_length := len (fst fa); e_seqno := 3; e_rows := 1 |};
     {| e_begin := len (fst fa); e_length := len (fst fb); e_seqno := 3; e_rows := 1 |};
     {| e_begin := len (fst fa); e_length := len (fst fb); e_seqno := -1; e_rows := 1 |}].
Proof.
  split; [apply made; repeat (apply Forall_cons; [cbn [In]; tauto|]); apply Forall_nil|].
  split; [apply Forall2_cons; [vm_compute; reflexivity|]; apply Forall2_cons; [vm_compute; reflexivity|apply Forall2_nil]|].
  split; [repeat constructor; discriminate|]. split; [reflexivity|]. split; [reflexivity|]. split.
  { apply Forall_cons; [|apply Forall_cons; [|apply Forall_nil]]; intros i j k a b L;
    repeat (destruct i as [|i]; cbn [nth_error]; try (intros Q; discriminate Q)); repeat (destruct j as [|j]; cbn [nth_error]; try lia; try (intros ? Q; discriminate Q));
    repeat (destruct k as [|k]; cbn [nth_error]; try lia; try (intros ? ? Q; discriminate Q)); intros Q1 Q2 Q3; congruence. }
  change [{| e_begin := 0; e_length := len (fst fa); e_seqno := 7; e_rows := 2 |};
     {| e_begin := 0; e_length := len (fst fa); e_seqno := 3; e_rows := 1 |};
     {| e_begin := len (fst fa); e_length := len (fst fb); e_seqno := 3; e_rows := 1 |};
     {| e_begin := len (fst fa); e_length := len (fst fb); e_seqno := -1; e_rows := 1 |}]
   with (map (fun p => {| e_begin := 0; e_length := len (fst fa); e_seqno := fst p; e_rows := snd p |}) (index_block [7; 7; 3]) ++
         (map (fun p => {| e_begin := 0 + len (fst fa); e_length := len (fst fb); e_seqno := fst p; e_rows := snd p |}) (index_block [3; -1]) ++ [])).
  cbn [map]. apply ix_block; [apply C51_index|]. apply ix_block; [apply C51_index|]. apply ix_end.
Qed.

(** What the tool's help says ("one entry is made for each unique seqno - block pair") is not
    so: a seqno that comes back in a block after another one has several entries. *)
Theorem C64_unique_refuted : exists f vs es, index_of 0 [f] [vs] es /\ index_rows [(0, len f)] [vs] = map (fun e => (e_begin e, e_length e, e_seqno e, e_rows e)) es /\
  ~ NoDup (map (fun e => (e_begin e, e_seqno e)) es).
Proof.
  exists [0], [1; 2; 1], (map (fun p => {| e_begin := 0; e_length := 1; e_seqno := fst p; e_rows := snd p |}) (index_block [1; 2; 1]) ++ []).
  split; [apply (ix_block 0 [0]); [apply C51_index|apply ix_end]|]. split; [reflexivity|].
  intros H. inversion H as [|? ? Q _]. apply Q. right. left. reflexivity.
Qed.

(** Without integers as doubles the index is not one: the entry for seqno 7 says
    4619567317775286272 (the bits of 7.0), to a reader with the same settings. *)
Theorem C64_int64_refuted : exists file, write_index quick int64s 3 [] (fun _ => Ok [7]) [] [(0, 5)] = Ok file /\
  read_rows quick int64s (fun _ _ => []) 3 file = ([map (le_bytes 8) [0; 4617315517961601024; 4619567317775286272; 4607182418800017408]], Clean) /\
  int_cell true 7 <> le_bytes 8 4619567317775286272.
Proof. eexists. split; [vm_compute; reflexivity|]. split; [vm_compute; reflexivity|vm_compute; discriminate]. Qed.

(** A data file of more than 2^31 bytes, in two blocks: the offset of the second does not fit
    an integer of the format, and the conversion is undefined. *)
Theorem C64_large_refuted : write_index quick doubles 3 [] (fun _ => Ok [7]) [] [(0, 2 ^ 31); (2 ^ 31, 100)] = UB.
Proof.
  unfold write_index.
  replace (map_out (make_column doubles) index_columns) with (Ok (match map_out (make_column doubles) index_columns with Ok md => md | _ => [] end)) by (vm_compute; reflexivity).
  cbn [bind]. destruct (writer_columns doubles (new_writer []) (match map_out (make_column doubles) index_columns with Ok md => md | _ => [] end)) as [w| |] eqn:E2.
  2,3: vm_compute in E2; discriminate E2.
  cbn [bind]. assert (B : index_blocks quick doubles 3 [] (fun _ => Ok [7]) [] (write_header w) [(0, 2 ^ 31); (2 ^ 31, 100)] =
    write_ops quick doubles 3 [] (write_header w) [index_row 0 (2 ^ 31) (7, 1); index_row (2 ^ 31) 100 (7, 1)]).
  { cbn [index_blocks bind]. change (index_block [7]) with [(7, 1)]. cbn [map write_ops].
    destruct (write_op quick doubles 3 [] (write_header w) (index_row 0 (2 ^ 31) (7, 1))) as [w1| |]; cbn [bind]; try reflexivity.
    destruct (write_op quick doubles 3 [] w1 (index_row (2 ^ 31) 100 (7, 1))) as [w2| |]; reflexivity. }
  rewrite B. clear B. vm_compute in E2. injection E2 as <-. vm_compute. reflexivity.
Qed.
