(** C61: concrete queries. *)
From Coq Require Import Lia.
From Verif Require Import Base Fp Stream Codec Meta Header Encoder WriterSpec Spec OdaOut OdaSpec SelectOut SelectSpec P_Select P_SelectOld.
Open Scope Z_scope.

Definition column_d : colinfo := {| ci_name := [100]; ci_type := ty_DOUBLE; ci_size := 8; ci_bits := [] |}.
Definition column_i : colinfo := {| ci_name := [105]; ci_type := ty_INTEGER; ci_size := 8; ci_bits := [] |}.
Definition column_s : colinfo := {| ci_name := [115]; ci_type := ty_STRING; ci_size := 16; ci_bits := [] |}.
Definition narrow_s : colinfo := {| ci_name := [115]; ci_type := ty_STRING; ci_size := 8; ci_bits := [] |}.
Definition wide := [(column_d, true); (column_s, false)].
Definition narrow := [(column_d, true); (narrow_s, false)].
Definition vals1 := [ONumber 4607182418800017408 false; OText [65; 66; 67; 68; 69; 70; 71; 72; 73] 9 false].
Definition vals2 := [ONumber 0 true; OText [65] 1 false].
Definition blank : Z -> Z := fun _ => 255.
Definition st1 : settings := {| iad := true; long_strings := false |}.

Lemma accepted_wide : Forall accepted (map fst wide).
Proof. repeat constructor; vm_compute; intuition congruence. Qed.
Lemma accepted_narrow : Forall accepted (map fst narrow).
Proof. repeat constructor; vm_compute; intuition congruence. Qed.

(** Rows into buffers of the caller, one of them too small and one too large, and columns
    announced anew. *)
Definition deeds : list sevent :=
  [STypes wide 0; SBuffer 1000 3; SRow vals1; SRow vals2; SBuffer 2000 2; SRow vals1; SBuffer 3000 4; SRow vals1;
   STypes narrow 0; SBuffer 4000 0; SRow vals2; SRow vals1].

Theorem C61_witness :
  all_possible false nothing deeds /\ all_possible true nothing [STypes wide 5000; SRow vals1; STypes narrow 6000; SRow vals2] /\
  map snd (sel_events st1 (sel_make false blank) deeds) =
    [Ok tt; Ok tt; Ok tt; Ok tt; Throw AssertFailed; Throw AssertFailed; Ok tt; Throw AssertFailed; Ok tt; Ok tt; Ok tt; Throw SeriousBug] /\
  map (fun r => s_new (fst r)) (sel_events st1 (sel_make false blank) deeds) =
    [true; true; true; false; false; false; false; false; true; true; true; true] /\
  match nth_error (sel_events st1 (sel_make false blank) deeds) 3 with
  | Some (s, _) => get (s_mem s) 996 32 = [255; 255; 255; 255] ++ le_bytes 8 realMDI ++ [65] ++ repeat 0 15 ++ [255; 255; 255; 255]
  | None => False
  end.
Proof.
  split; [|split; [|split; [|split]]].
  - cbn [all_possible deeds after f_cols possible nothing].
    repeat match goal with |- _ /\ _ => split | |- True => exact Logic.I end;
      try discriminate; try exact accepted_wide; try exact accepted_narrow; try lia.
    all: intros _; split; [repeat constructor; vm_compute; congruence|repeat constructor; vm_compute; congruence].
  - cbn [all_possible deeds after f_cols possible nothing].
    repeat match goal with |- _ /\ _ => split | |- True => exact Logic.I end;
      try discriminate; try exact accepted_wide; try exact accepted_narrow; try lia.
    all: intros _; split; [repeat constructor; vm_compute; congruence|repeat constructor; vm_compute; congruence].
  - vm_compute. reflexivity.
  - vm_compute. reflexivity.
  - vm_compute. reflexivity.
Qed.

(** Through the older C interface: three rows, the columns announced again before the third. *)
Definition rows3 : list qrow :=
  [{| q_types := []; q_vals := vals1 |}; {| q_types := []; q_vals := vals2 |}; {| q_types := [(wide, 0)]; q_vals := vals2 |}].

Theorem C61_session_witness :
  steady (width (map fst wide)) (map fst wide) rows3 /\
  map snd (select_calls st1 (prepared st1 blank wide rows3) [(3, 1000); (3, 1000); (3, 2000); (3, 1000); (3, 1000)]) =
    [Ok (0, Some true); Ok (0, Some false); Ok (0, Some true); Ok (1, None); Ok (1, None)].
Proof.
  split; [|vm_compute; reflexivity]. split.
  - constructor; [constructor|]. constructor; [constructor|]. constructor; [|constructor]. constructor; [|constructor].
    split; [discriminate|]. split; [exact accepted_wide|reflexivity].
  - repeat constructor; vm_compute; congruence.
Qed.

(** A buffer larger than a row, handed over with its size, is accepted, but no row can be put
    into it; the same buffer with size 0 gets the row. *)
Theorem C61_larger_buffer_refuted :
  map snd (sel_events st1 (sel_make false blank) [STypes wide 0; SBuffer 1000 4; SRow vals1; SRow vals2; SBuffer 1000 0; SRow vals1]) =
    [Ok tt; Ok tt; Throw AssertFailed; Throw AssertFailed; Ok tt; Ok tt].
Proof. vm_compute. reflexivity. Qed.

(** The older C interface is told the size of the buffer and does not look at it: a row of
    three doubles goes into a buffer of one. *)
Theorem C61_count_ignored_refuted :
  let r := old_select_next st1 (prepared st1 blank wide rows3) 1 1000 in
  snd r = Ok (0, Some true) /\ s_mem (it_out (fst r)) 1008 = 65 /\ s_mem (it_out (fst r)) 1023 = 0.
Proof. cbv zeta. split; [vm_compute; reflexivity|]. split; vm_compute; reflexivity. Qed.

(** When the rows become wider (a later table has longer strings) the call throws and the row
    is lost; the next call, with the buffer that was large enough for all rows so far, writes
    behind it. *)
Definition wider : list qrow :=
  [{| q_types := []; q_vals := vals2 |}; {| q_types := [(wide, 0)]; q_vals := vals1 |}; {| q_types := []; q_vals := vals2 |}].

Theorem C61_wider_rows_refuted :
  old_select_size (prepared st1 blank narrow wider) = Ok 2 /\
  map snd (select_calls st1 (prepared st1 blank narrow wider) [(2, 1000); (2, 1000); (2, 1000); (2, 1000)]) =
    [Ok (0, Some true); Throw AssertFailed; Ok (0, Some true); Ok (1, None)] /\
  map (fun r => get (s_mem (it_out (fst r))) 1016 8) (select_calls st1 (prepared st1 blank narrow wider) [(2, 1000); (2, 1000); (2, 1000)]) =
    [repeat 255 8; repeat 255 8; repeat 0 8].
Proof. split; [vm_compute; reflexivity|]. split; vm_compute; reflexivity. Qed.
