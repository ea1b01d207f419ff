(** Concrete cases for C23, C24, C46, and the counterexample to C25 beyond 65535 columns. *)
From Coq Require Import String.
From Verif Require Import Spec Base Fp Stream Codec Meta Header Encoder Table Reader ReadSpec
  P_Frame Md5 Through P_Numbers P_Reals P_Encode.
Open Scope Z_scope.

Definition five : coldata := {| cd_size := 8; cd_cells := map (int_cell false) [3; 1; 4; 1; 5] |}.

Lemma int_table ns : forallb (fun n => (-2147483648 <=? n) && (n <? 2147483648)) ns = true -> (List.length ns <= 100)%nat ->
  valid_table doubles odc_tag (List.length ns) [col_x ty_INTEGER 8] [{| cd_size := 8; cd_cells := map (int_cell false) ns |}] [].
Proof.
  intros H L. split.
  - constructor; [|constructor]. split; [reflexivity|]. split; [apply map_length|]. apply (st_int doubles); [now left|reflexivity|].
    rewrite forallb_forall in H. split; [|left]; apply Forall_forall; intros n Hn; specialize (H n Hn); unfold mid, int32; lia.
  - discriminate.
  - vm_compute. reflexivity.
  - constructor; [intros []|constructor].
  - constructor; [|constructor]. split; [vm_compute; reflexivity|]. intros Q; discriminate Q.
  - split; [vm_compute; repeat split; reflexivity|]. split; [vm_compute; reflexivity|]. repeat constructor; vm_compute; reflexivity.
  - vm_compute. reflexivity.
  - cbn [map col_x ci_size fold_right]. lia.
Qed.

(** 5 rows, at most 2 per frame: 3 frames of 2, 2 and 1 rows *)
Theorem C23_witness :
  rectangular 5 [col_x ty_INTEGER 8] [five] /\ frame_count 5 2 = 3%nat /\
  forall i, (i < 3)%nat -> valid_table doubles odc_tag (if (S i <? 3)%nat then 2 else 5 - i * 2)%nat [col_x ty_INTEGER 8] (piece 2 i [five]) [].
Proof.
  split; [split; [reflexivity|split; [discriminate|repeat constructor]]|]. split; [reflexivity|].
  intros [|[|[|i]]] Hi; [| | |lia].
  - apply (int_table [3; 1]); [reflexivity|cbn; lia].
  - apply (int_table [4; 1]); [reflexivity|cbn; lia].
  - apply (int_table [5]); [reflexivity|cbn; lia].
Qed.

Definition written (r : option (list Z * outcome unit)) : list Z := match r with Some (b, _) => b | None => [] end.
Definition ended (r : option (list Z * outcome unit)) : option (outcome unit) := match r with Some (_, e) => Some e | None => None end.
Definition row_counts (b : list Z) : list Z * ending :=
  let r := read_tables md5 doubles 0 b 20 [] in (map t_rows (fst r), snd r).

Theorem C23_computed :
  let call m := encode_api md5 odc_tag 10 doubles LE [col_x ty_INTEGER 8] [five] [] m in
  row_counts (written (call 2%nat)) = ([2; 2; 1], Clean) /\ ended (call 2%nat) = Some (Ok tt) /\
  row_counts (written (call 1%nat)) = ([1; 1; 1; 1; 1], Clean) /\ ended (call 1%nat) = Some (Ok tt) /\
  row_counts (written (call 5%nat)) = ([5], Clean) /\ row_counts (written (call 4%nat)) = ([4; 1], Clean).
Proof. vm_compute. repeat split. Qed.

(** a REAL column whose third row, the least single, cannot be stored in a frame without the greatest one *)
Definition d_minus_fltmax : Z := 14407015207421345792.
Definition fail_col : coldata := {| cd_size := 8; cd_cells := map (le_bytes 8) [d_one; 0; d_minus_fltmax; d_one; d_one] |}.

Theorem C46_witness :
  let call m := encode_api md5 odc_tag 10 doubles LE [col_x ty_REAL 8] [fail_col] [] m in
  row_counts (written (call 2%nat)) = ([2], Clean) /\ ended (call 2%nat) = Some (Throw AssertFailed) /\
  row_counts (written (call 1%nat)) = ([1; 1; 1; 1; 1], Clean) /\ written (call 5%nat) = [].
Proof. vm_compute. repeat split. Qed.

(** the hypotheses of the counterexample to termination *)
Theorem C24_witness : rectangular 5 [col_x ty_INTEGER 8] [five] /\
  is_ok (encode_frame md5 odc_tag doubles LE [col_x ty_INTEGER 8] (piece 0 0 [five]) []) = true.
Proof. split; [exact (proj1 C23_witness)|]. vm_compute. reflexivity. Qed.

(** ** C25: 65537 columns, all constant but the first and the last, of eight bytes each.  A
    second row that differs in the last column only gets the marker 65536 mod 65536 = 0 and
    eight bytes of data, which a reader takes for a complete row. *)
Definition wide : nat := Z.to_nat 65537.
Definition raw_codec : codec := new_codec true LE KLongReal ty_DOUBLE.
Definition wide_codecs : list codec := raw_codec :: repeat (new_codec true LE KConstant ty_DOUBLE) (wide - 2) ++ [raw_codec].
Definition wide_row (x : Z) : list (list Z) := repeat (le_bytes 8 0) (wide - 1) ++ [le_bytes 8 x].
Definition wide_rows : list (list (list Z)) := [wide_row 0; wide_row d_one].
Definition undecoded (k : codec) : dcol := {| d_codec := k; d_fac := None; d_last := 0 |}.

Definition wide_check (x : outcome (list Z)) : bool :=
  match x with
  | Ok b => (List.length b =? 28)%nat && match decode_rows 2 0 0 (map undecoded wide_codecs) b with Throw AssertFailed => true | _ => false end
  | _ => false
  end.

Lemma wide_checked : wide_check (encode_rows wide_codecs None wide_rows) = true.
Proof. vm_compute. reflexivity. Qed.

Theorem C25_refuted : List.length wide_codecs = wide /\ Forall (fun r => List.length r = wide) wide_rows /\ exists body,
  encode_rows wide_codecs None wide_rows = Ok body /\ List.length body = 28%nat /\
  decode_rows 2 0 0 (map undecoded wide_codecs) body = Throw AssertFailed.
Proof.
  split; [unfold wide_codecs; cbn [List.length]; rewrite app_length, repeat_length; unfold wide; cbn [List.length]; lia|].
  split; [repeat apply Forall_cons; try apply Forall_nil; unfold wide_row; rewrite app_length, repeat_length; unfold wide; cbn [List.length]; lia|].
  pose proof wide_checked as C. destruct (encode_rows wide_codecs None wide_rows) as [body| |]; [|discriminate C|discriminate C].
  exists body. split; [reflexivity|]. unfold wide_check in C. apply andb_prop in C as [C1 C2]. apply Nat.eqb_eq in C1.
  split; [exact C1|]. destruct (decode_rows 2 0 0 (map undecoded wide_codecs) body) as [?|[]|]; try discriminate C2. reflexivity.
Qed.
Print Assumptions C25_refuted.
