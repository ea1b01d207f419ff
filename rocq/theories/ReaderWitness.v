(** Concrete cases for C06, C27 - C30, C33, C35, C39, C42, with the real digest, and
    counterexamples to the stronger statements one might expect. *)
From Coq Require Import String.
From Verif Require Import Spec Base Fp Stream Codec Meta Header Encoder Table Reader ReadSpec Iterators
  P_Frame Md5 Through P_Reader P_Tables.
Open Scope Z_scope.

Definition get {A} (d : A) (x : outcome A) : A := match x with Ok a => a | _ => d end.
Definition ints (ns : list Z) (pr : props) : list Z :=
  get [] (encode_frame md5 odc_tag doubles LE [col_x ty_INTEGER 8] [{| cd_size := 8; cd_cells := map (int_cell false) ns |}] pr).
Definition reals (ns : list Z) : list Z :=
  get [] (encode_frame md5 odc_tag doubles LE [col_x ty_DOUBLE 8] [{| cd_size := 8; cd_cells := map (fun z => le_bytes 8 z) ns |}] []).

(** two compatible frames of 3 and 2 rows, then one of another type with 1 row *)
Definition fA : list Z := ints [5; 7; 5] [(str "k"%string, str "one"%string)].
Definition fB : list Z := ints [1; 2] [(str "k"%string, str "two"%string); (str "l"%string, str "three"%string)].
Definition fC : list Z := reals [d_one].
Definition three : list (list Z) := [fA; fB; fC].
Definition three_file : list Z := Eval vm_compute in concat three.

Definition shape (r : list (list table) * ending) : list (list Z) * ending := (map (map t_rows) (fst r), snd r).

Lemma frame_by f : (match read_table md5 doubles 0 f 0 with Ok (Some t) => t_next t =? Z.of_nat (List.length f) | _ => false end) = true ->
  exists t, frame md5 doubles f t.
Proof.
  unfold frame. destruct (read_table md5 doubles 0 f 0) as [[t|]| |]; try discriminate. intros H. apply Z.eqb_eq in H. eauto.
Qed.

(** the hypotheses of C06, C27, C28, C30, C33 *)
Theorem C27_witness : frames md5 doubles three /\ estimate (len (concat three)) (concat three) /\ concat three = three_file.
Proof.
  split; [|split; [now right|vm_compute; reflexivity]].
  repeat constructor; apply frame_by; vm_compute; reflexivity.
Qed.

Theorem C27_computed :
  map t_rows (fst (read_tables md5 doubles (len three_file) three_file 4 [])) = [3; 2; 1] /\
  snd (read_tables md5 doubles (len three_file) three_file 4 []) = Clean /\
  map (fun t => t_next t - t_start t) (fst (read_tables md5 doubles 0 three_file 4 [])) = map len three.
Proof. vm_compute. repeat split. Qed.

Theorem C28_witness :
  shape (read_all md5 doubles (len three_file) three_file 9 false (-1)) = ([[3]; [2]; [1]], Clean) /\
  shape (read_all md5 doubles (len three_file) three_file 9 true (-1)) = ([[3; 2]; [1]], Clean) /\
  shape (read_all md5 doubles (len three_file) three_file 9 true 5) = ([[3; 2]; [1]], Clean) /\
  shape (read_all md5 doubles (len three_file) three_file 9 true 4) = ([[3]; [2]; [1]], Clean).
Proof. vm_compute. repeat split. Qed.

(** C29: a table larger than the limit cannot be read. *)
Theorem C29_witness :
  shape (read_all md5 doubles (len three_file) three_file 9 true 2) = ([], Failed AssertFailed) /\
  shape (read_all md5 doubles (len fB + len fA) (fB ++ fA) 9 true 2) = ([[2]], Failed AssertFailed).
Proof. vm_compute. repeat split. Qed.

(** C06: cut in the second frame's header, in its data, and between two frames *)
Definition cut (k : nat) (est : nat -> Z) : list (list Z) * ending :=
  shape (read_all md5 doubles (est k) (firstn k three_file) 9 false (-1)).
Definition cA : nat := Eval vm_compute in List.length fA.
Definition cAB : nat := Eval vm_compute in List.length (fA ++ fB).
Theorem C06_witness :
  cut (cA + 1) Z.of_nat = ([[3]], Failed Incomplete) /\ cut (cAB - 1) Z.of_nat = ([[3]], Failed Incomplete) /\
  cut cAB Z.of_nat = ([[3]; [2]], Clean) /\ cut 1 Z.of_nat = ([], Failed Incomplete).
Proof. vm_compute. repeat split. Qed.

(** A handle that does not know its size (estimate 0): a frame cut in its data is returned
    as if it were whole, and decoding it is undefined. *)
Theorem C06_unknown_size_refuted :
  cut (cAB - 1) (fun _ => 0) = ([[3]; [2]], Clean) /\
  match read_tables md5 doubles 0 (firstn (cAB - 1) three_file) 9 [] with
  | ([_; t], Clean) => decode_target (firstn (cAB - 1) three_file) t [str "x"%string]
                         [{| f_size := 8; f_elems := repeat (repeat 0 8) 2 |}] = UB
  | _ => False
  end.
Proof. vm_compute. repeat split. Qed.

(** With aggregation, the whole tables read before the cut are lost with the frame. *)
Theorem C06_aggregated_loss :
  shape (read_all md5 doubles (Z.of_nat (cAB - 1)) (firstn (cAB - 1) three_file) 9 true (-1)) = ([], Failed Incomplete).
Proof. vm_compute. reflexivity. Qed.

Theorem C30_witness :
  match read_tables md5 doubles (len three_file) three_file 9 [] with
  | (ts, Clean) => encoded_data three_file (firstn 2 (skipn 1 ts)) = Ok (fB ++ fC) /\ frame_offset (firstn 2 (skipn 1 ts)) = len fA
  | _ => False
  end.
Proof. vm_compute. repeat split. Qed.

(** C33: two iterators, one running ahead *)
Theorem C33_witness :
  match run_all md5 doubles (len three_file) three_file 2
          [Look 0; Advance 0; Look 0; Look 1; Advance 0; Advance 0; Look 0; Advance 1; Look 1] with
  | Ok (obs, s) => map (fun o => (fst o, option_map t_rows (snd o))) obs =
      [(0%nat, Some 3); (0%nat, Some 2); (1%nat, Some 3); (0%nat, None); (1%nat, Some 2)] /\ List.length (s_tables s) = 3%nat
  | _ => False
  end.
Proof. vm_compute. repeat split. Qed.

(** Advancing an iterator that has reached the end restarts it. *)
Theorem C33_restart :
  match read_tables md5 doubles (len three_file) three_file 9 [] with
  | (ts, Clean) => match iter_next md5 doubles (len three_file) three_file ts (-1) with Ok (_, p) => p = 0 | _ => False end
  | _ => False
  end.
Proof. vm_compute. reflexivity. Qed.

(** C35: the first table's value wins *)
Theorem C35_witness :
  match read_all md5 doubles (len three_file) three_file 9 true (-1) with
  | (fr :: _, _) => mget (frame_props fr) (str "k"%string) = Some (str "one"%string) /\
                    mget (frame_props fr) (str "l"%string) = Some (str "three"%string) /\
                    mget (frame_props fr) (str "m"%string) = None
  | _ => False
  end.
Proof. vm_compute. repeat split. Qed.

(** C39 *)
Definition mk (nm : string) (ty : Z) : column :=
  {| col_name := str nm; col_type := ty; col_bfnames := []; col_bfsizes := []; col_coder := new_codec true LE KInt32 ty |}.
Theorem C39_witness :
  let cs := [mk "lat@hdr"%string ty_INTEGER; mk "lon@hdr"%string ty_INTEGER; mk "lat@body"%string ty_INTEGER; mk "latitude"%string ty_INTEGER] in
  column_index cs (str "lon"%string) = Ok 1 /\ column_index cs (str "lat@body"%string) = Ok 2 /\
  column_index cs (str "lat"%string) = Throw AmbiguousColumn /\ column_index cs (str "la"%string) = Throw ColumnNotFound /\
  has_column cs (str "lat"%string) = true /\ column_index cs (str "latitude"%string) = Ok 3.
Proof. vm_compute. repeat split. Qed.

(** C42: order does not matter; with repeated names, the check is not symmetric *)
Theorem C42_witness :
  let a := mk "a"%string ty_INTEGER in let b := mk "b"%string ty_DOUBLE in
  compatible [a; b] [b; a] = true /\ compatible [a; b] [a; mk "b"%string ty_INTEGER] = false /\ compatible [a] [a; b] = false.
Proof. vm_compute. repeat split. Qed.

Theorem C42_repeated_refuted :
  let a := mk "a"%string ty_INTEGER in let b := mk "b"%string ty_DOUBLE in
  compatible [a; b] [a; a] = true /\ compatible [a; a] [a; b] = false.
Proof. vm_compute. repeat split. Qed.

(** The names and sizes of bitfields are not looked at. *)
Theorem C42_bitfields_refuted :
  let f (n : string) (w : Z) := {| col_name := str "a"%string; col_type := ty_BITFIELD; col_bfnames := [str n]; col_bfsizes := [w];
                        col_coder := new_codec true LE KInt32 ty_BITFIELD |} in
  f "p"%string 1 <> f "q"%string 7 /\ compatible [f "p"%string 1] [f "q"%string 7] = true.
Proof. vm_compute. split; [discriminate|reflexivity]. Qed.
