(** Concrete cases for C51. *)
From Coq Require Import String.
From Verif Require Import Spec Base Fp Stream Codec Meta Header Encoder Table Reader ReadSpec Quick Through Scan ScanSpec P_Scan.
Open Scope Z_scope.

(** A frame of one DOUBLE column with the given values, and its table. *)
Definition reals (ns : list Z) : list Z :=
  match encode_frame quick odc_tag doubles LE [col_x ty_DOUBLE 8] [{| cd_size := 8; cd_cells := map (le_bytes 8) ns |}] [] with
  | Ok b => b | _ => [] end.
Definition no_table : table :=
  {| t_start := 0; t_data := 0; t_next := 0; t_size := 0; t_order := LE; t_props := []; t_cols := []; t_rows := 0 |}.
Definition with_table (f : list Z) : list Z * table :=
  (f, match read_table quick doubles 0 f 0 with Ok (Some t) => t | _ => no_table end).

Definition fa : list Z * table := Eval vm_compute in with_table (reals [1; 2; 3]).
Definition fb : list Z * table := Eval vm_compute in with_table (reals [4; 5]).
Definition fc : list Z * table := Eval vm_compute in with_table (reals [6]).

Lemma a_frame p : (match read_table quick doubles 0 (fst p) 0 with Ok (Some t) => true | _ => false end) = true ->
  with_table (fst p) = p -> t_next (snd p) = Z.of_nat (List.length (fst p)) -> frame quick doubles (fst p) (snd p).
Proof.
  destruct p as [f t]. unfold with_table, frame. cbn [fst snd]. intros H E N. split; [|exact N].
  destruct (read_table quick doubles 0 f 0) as [[t'|]| |]; try discriminate. now injection E as ->.
Qed.

Lemma made l : Forall (fun p => In p [fa; fb; fc]) l -> made_of quick doubles l.
Proof.
  intros H. unfold made_of. eapply Forall_impl; [|exact H]. cbv beta. intros p [<-|[<-|[<-|[]]]]; apply a_frame; vm_compute; reflexivity.
Qed.

(** The hypotheses of C51_rows, _cut, _files, _blocks, _chunks and _sizes. *)
Theorem C51_witness : made_of quick doubles [fa; fb; fc] /\ estimate (len (bytes_of [fa; fb; fc])) (bytes_of [fa; fb; fc]) /\
  Forall (fun p => 0 <= t_rows (snd p)) [fa; fb; fc] /\ total_decoded [fa; fb; fc] = 48 /\
  expanded (snd fa) = 24 /\ total_rows [fa; fb; fc] = 6.
Proof.
  split; [apply made; repeat (apply Forall_cons; [cbn [In]; tauto|]); apply Forall_nil|]. split; [now right|].
  split; [repeat (apply Forall_cons; [vm_compute; discriminate|]); apply Forall_nil|]. repeat split.
Qed.

(** By evaluation: the row count, the blocks, two ways of cutting the file, and the index. *)
Theorem C51_computed :
  let file := bytes_of [fa; fb; fc] in
  row_count quick doubles (len file) file 4 = Ok 6 /\
  offsets_of_blocks quick doubles (len file) file 4 =
    Ok [(0, len (fst fa)); (len (fst fa), len (fst fb)); (len (fst fa ++ fst fb), len (fst fc))] /\
  get_chunks quick doubles (len file) file 40 4 = Ok (extents 0 [[fa; fb]; [fc]]) /\
  get_chunks quick doubles (len file) file 24 4 = Ok (extents 0 [[fa]; [fb]; [fc]]) /\
  index_block [7; 7; -1; 7; 3; 3] = [(7, 2); (-1, 1); (7, 1); (3, 2)].
Proof. vm_compute. repeat split. Qed.

(** A file whose first table is larger than the size asked for: nothing is left of it. *)
Theorem C51_lost_computed :
  let file := bytes_of [fa; fb] in
  get_chunks quick doubles (len file) file 20 4 = Ok [(0, 0)].
Proof. vm_compute. reflexivity. Qed.

(** A chunk may hold more than the size asked for although every table fits: the table that
    opens a chunk is not counted. *)
Theorem C51_size_refuted : exists l max groups, made_of quick doubles l /\ Forall (fun p => decoded_bytes (snd p) <= max) l /\
  get_chunks quick doubles (len (bytes_of l)) (bytes_of l) max 4 = Ok (extents 0 groups) /\ concat groups = l /\
  exists g, In g groups /\ max < total_decoded g.
Proof.
  exists [fc; fa; fb], 24, [[fc]; [fa; fb]]. split; [apply made; repeat (apply Forall_cons; [cbn [In]; tauto|]); apply Forall_nil|].
  split; [repeat (apply Forall_cons; [vm_compute; discriminate|]); apply Forall_nil|]. split; [vm_compute; reflexivity|]. split; [reflexivity|].
  exists [fa; fb]. split; [right; now left|vm_compute; reflexivity].
Qed.
