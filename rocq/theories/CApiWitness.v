(** Concrete cases for C40, and requests the C API serves wrongly. *)
From Coq Require Import String.
From Verif Require Import Spec Base Fp Stream Codec Meta Header Encoder Table P_Frame Strided P_Strided
  MemDecode MemProofs P_Memory Frame P_Threads ColumnInfo P_ColumnInfo CDecoder CApiProofs P_CApi P_CApiRoundtrip Md5 DecodeWitness ThreadWitness.
Open Scope Z_scope.

(** ** The frame of C19_witness: five columns, the last one of strings of 16 bytes *)

Definition cw_tag : list Z := str "odc version 1.6.2"%string.
Definition cw_props : props := [(str "key"%string, str "value"%string)].
Definition cw_frame : list Z := match encode_frame md5 cw_tag wit_st LE wit_cols wit_data cw_props with Ok f => f | _ => [] end.
Definition cw_table : list table := match read_table md5 wit_st 0 cw_frame 0 with Ok (Some t) => [t] | _ => [] end.
Definition cw_tmp (i : nat) : Z := 100000 + 1000 * Z.of_nat i.

Theorem C40_witness :
  Forall (fun ci => Forall (fun b => small_size (snd b)) (ci_bits ci)) wit_cols /\
  exists infos, column_infos cw_table = Ok infos /\ map i_size infos = [8; 8; 8; 8; 16] /\ temporaries_apart cw_tmp 5000 infos 2.
Proof.
  split; [unfold wit_cols; repeat constructor; unfold small_size; cbn; lia|].
  eexists. split; [vm_compute; reflexivity|]. split; [reflexivity|]. split.
  - intros i j f f' x Hi Hj N H1 H2.
    assert (B : forall k g, nth_error [8; 8; 8; 8; 16] k = Some g -> 0 < g <= 16).
    { intros [|[|[|[|[|k]]]]] g E; try (injection E as <-; lia). destruct k; discriminate. }
    assert (S : i_size f <= 16 /\ i_size f' <= 16).
    { split; [destruct (B i (i_size f)) as [_ Q]|destruct (B j (i_size f')) as [_ Q]]; try exact Q.
      - apply (f_equal (option_map i_size)) in Hi. rewrite <- nth_error_map in Hi. exact Hi.
      - apply (f_equal (option_map i_size)) in Hj. rewrite <- nth_error_map in Hj. exact Hj. }
    unfold cw_tmp in *. lia.
  - intros i f x Hi H1 H2. unfold cw_tmp, row_width in *. cbn [map i_size fold_right] in H2. lia.
Qed.

(** What a call with one thread does. *)
Definition run_c (heap : Z) (tmp : nat -> Z) (file : list Z) (ts : list table) (d : cdecoder) (m : mem) : option (cdecoder * mem) :=
  match prepare_decode heap tmp ts d with
  | Ok (d1, arrs) =>
      match frame_decode 1 file (cd_names d) ts arrs with
      | Here (ops, Ok _) =>
          match exec ops m with
          | Ok m' => Some (d1, reorder_all tmp (cd_nrows d1) (Z.to_nat (frame_rows ts)) 0 (cd_cols d1) m')
          | _ => None
          end
      | _ => None
      end
  | _ => None
  end.

Lemma run_c_runs heap tmp file ts d m d1 m' : run_c heap tmp file ts d m = Some (d1, m') -> c_decode 1 heap tmp file ts d m (Ok (d1, frame_rows ts)) m'.
Proof.
  unfold run_c. destruct (prepare_decode heap tmp ts d) as [[d2 arrs]|e|] eqn:P; try discriminate. destruct (frame_decode 1 file (cd_names d) ts arrs) as [[ops [u|e|]]|] eqn:FD; try discriminate.
  destruct (exec ops m) as [m2|e|] eqn:X; try discriminate. intros E. injection E as <- <-. apply (cd_done _ _ _ _ _ _ _ d2 arrs m2 P); [lia|]. change (Z.to_nat 1) with 1%nat. rewrite FD. destruct u. now constructor.
Qed.

Definition cw_decoder (major : bool) : cdecoder := match defaults_from_frame cw_table new_decoder with Ok d => set_column_major major d | _ => new_decoder end.
Definition cw_memory (major : bool) : mem := match run_c 5000 cw_tmp cw_frame cw_table (cw_decoder major) m_init with Some (_, m') => m' | None => fun _ => 0 end.
(** the doubles (words of 8 bytes) of the array of 96 bytes *)
Definition words (m : mem) (a : Z) (n : nat) : list (list Z) := map (fun k => load m (a + 8 * Z.of_nat k) 8) (seq 0 n).

(** the values of the two rows; the string is two words *)
Definition row0 : list (list Z) := [int_cell false (-7); int_cell false 3; le_bytes 8 4607182418800017408; le_bytes 8 4607182418800017408; str "hello wo"%string; pad 8 (str "rld"%string)].
Definition row1 : list (list Z) := [int_cell false MDI; int_cell false 70000; le_bytes 8 4611686018427387904; le_bytes 8 realMDI; pad 8 (str "x"%string); repeat 0 8].

Theorem C40_computed :
  words (cw_memory false) 5000 12 = row0 ++ row1 /\
  words (cw_memory true) 5000 12 = concat (map (fun p => [fst p; snd p]) (combine row0 row1)).
Proof. vm_compute. split; reflexivity. Qed.

(** ** A request with an array of the caller for one of two columns, and two tables *)

Definition mix : cdecoder :=
  match column_set_data_array 0 0 24 (Some 2000) (add_column (str "a@t"%string) (add_column (str "b@t"%string) (set_row_count 7 new_decoder))) with
  | Ok d => d | _ => new_decoder end.

Definition mix_infos : list cinfo := map (fun nm => {| i_name := nm; i_type := ty_DOUBLE; i_size := 8; i_bits := [] |}) [str "a@t"%string; str "b@t"%string].

Theorem C40_mixed_witness :
  servable 5000 cw_tmp [wtab; wtab2] mix mix_infos [8; 8] /\ all_decodable wfile (cd_names mix) [8; 8] [wtab; wtab2].
Proof.
  split.
  - assert (AC : forall i c w, at_col mix [8; 8] i c w -> (i = 0%nat /\ c = {| dc_data := Some 2000; dc_size := 0; dc_stride := 24; dc_transpose := false |} \/ i = 1%nat /\ c = plain) /\ w = 8).
    { intros [|[|i]] c w [A B]; cbn in A, B; [injection A as <-; injection B as <-; auto|injection A as <-; injection B as <-; auto|destruct i; discriminate]. }
    constructor.
    + vm_compute. reflexivity.
    + constructor; [cbn; intros [Q|[]]; discriminate|]. constructor; [intros []|constructor].
    + split; reflexivity.
    + cbn. lia.
    + intros i nm c w Hn At. destruct (AC i c w At) as [[[-> ->]|[-> ->]] ->]; (split; [|lia]); cbn in Hn; injection Hn as <-.
      * apply (sz_own _ _ _ 2000); reflexivity.
      * eapply (sz_frame _ _ _ {| i_name := str "a@t"%string; i_type := ty_DOUBLE; i_size := 8; i_bits := [] |}); try reflexivity. left. reflexivity.
    + repeat constructor.
    + repeat constructor; cbn; lia.
    + cbn. lia.
    + vm_compute. reflexivity.
    + left. vm_compute. reflexivity.
    + vm_compute. split; discriminate.
    + vm_compute. discriminate.
    + intros i c w At. destruct (AC i c w At) as [[[-> ->]|[-> ->]] ->]; [cbn; lia|discriminate].
    + intros i c w At _ M. discriminate.
    + intros i j c c' w w' x At At' N (a & r & b & E & _) (a' & r' & b' & E' & _). destruct (AC i c w At) as [[[-> ->]|[-> ->]] _], (AC j c' w' At') as [[[-> ->]|[-> ->]] _]; try discriminate. congruence.
    + intros i c w x At (a & r & b & E & Hr & Hb & ->) H. destruct (AC i c w At) as [[[-> ->]|[-> ->]] ->]; [|discriminate]. cbn in E. injection E as <-. destruct H as [H _]. change (array_at 5000 mix) with 5000 in H. change (stride_of _ 8) with 24 in H. change (frame_rows [wtab; wtab2]) with 6 in Hr. lia.
    + intros i j c c' w w' x At At' _ (_ & M & _). discriminate.
    + intros i j c c' w w' x At At' _ (_ & M & _). discriminate.
    + intros i c w x At (_ & M & _). discriminate.
  - intros t facs Ht Fa.
    assert (G : forall f, f_size f = 8 -> Forall (fun e => List.length e = 8%nat) (f_elems f) -> List.length (f_elems f) = Z.to_nat (t_rows t) ->
      (t = wtab /\ exists e0 e1 e2 e3, f = {| f_size := 8; f_elems := [e0; e1; e2; e3] |} /\ Forall (fun e => List.length e = 8%nat) [e0; e1; e2; e3]) \/
      (t = wtab2 /\ exists e0 e1, f = {| f_size := 8; f_elems := [e0; e1] |} /\ Forall (fun e => List.length e = 8%nat) [e0; e1])).
    { intros [sz el] E1 E2 E3. cbn [f_size f_elems] in *. subst sz. destruct Ht as [<-|[<-|[]]]; [left|right]; (split; [reflexivity|]).
      - destruct el as [|e0 [|e1 [|e2 [|e3 [|]]]]]; try discriminate. exists e0, e1, e2, e3. auto.
      - destruct el as [|e0 [|e1 [|]]]; try discriminate. exists e0, e1. auto. }
    assert (L8 : forall e : list Z, List.length e = 8%nat -> exists a b c d e' f g h, e = [a; b; c; d; e'; f; g; h]).
    { intros e H. destruct e as [|a [|b [|c [|d [|e' [|f [|g [|h [|]]]]]]]]]; try discriminate. exists a, b, c, d, e', f, g, h. reflexivity. }
    inversion Fa as [|? f1 ? l1 (A1 & A2 & A3) Fa1]; subst. inversion Fa1 as [|? f2 ? l2 (B1 & B2 & B3) Fa2]; subst. inversion Fa2; subst.
    destruct (G f1 A1 A3 A2) as [(-> & e0 & e1 & e2 & e3 & -> & F1)|(-> & e0 & e1 & -> & F1)]; destruct (G f2 B1 B3 B2) as [(T & g0 & g1 & g2 & g3 & -> & F2)|(T & g0 & g1 & -> & F2)]; try discriminate;
      clear T Fa Fa1 Fa2 G A1 A2 A3 B1 B2 B3; repeat match goal with H : Forall _ (_ :: _) |- _ => inversion H; clear H; subst end;
      repeat match goal with H : List.length ?e = 8%nat |- _ => destruct (L8 e H) as (? & ? & ? & ? & ? & ? & ? & ? & ->); clear H end; vm_compute; reflexivity.
Qed.

(** ** Requests served wrongly *)

(** One column of strings of 16 bytes into an array of the caller for 4 rows, when the
    caller then lowers the number of rows to 3: the frame of 2 rows is put in a column-major
    array of 3 rows. *)
Definition lowered : cdecoder :=
  match set_data_array (Some 5000) 16 4 true (add_column (str "s"%string) new_decoder) with Ok d => set_row_count 3 d | _ => new_decoder end.

Theorem C40_lowered_rows_refuted : exists d1 m',
  c_decode 1 0 cw_tmp cw_frame cw_table lowered m_init (Ok (d1, 2)) m' /\ cd_height d1 = 4 /\ cd_width d1 = 16 /\
  load m' (5000 + 8 * 4) 8 <> pad 8 (str "rld"%string) /\ load m' (5000 + 8 * 3) 8 = pad 8 (str "rld"%string).
Proof.
  destruct (run_c 0 cw_tmp cw_frame cw_table lowered m_init) as [[d1 m']|] eqn:E; [|exfalso; revert E; vm_compute; discriminate].
  exists d1, m'. split; [change 2 with (frame_rows cw_table) at 1 || idtac; replace (Ok (d1, 2)) with (Ok (d1, frame_rows cw_table)) by (vm_compute; reflexivity); apply run_c_runs; exact E|].
  assert (D : match run_c 0 cw_tmp cw_frame cw_table lowered m_init with Some (d2, m2) => (cd_height d2 = 4 /\ cd_width d2 = 16) /\ load m2 (5000 + 8 * 4) 8 <> pad 8 (str "rld"%string) /\ load m2 (5000 + 8 * 3) 8 = pad 8 (str "rld"%string) | None => False end).
  { vm_compute. split; [split; reflexivity|]. split; [discriminate|reflexivity]. }
  rewrite E in D. tauto.
Qed.

(** Setting only the element size of a column takes it out of the width of the array: the
    array has 8 bytes per row for two columns. *)
Definition sized_only : cdecoder :=
  match column_set_data_size 0 8 (add_column (str "b@t"%string) (add_column (str "a@t"%string) (set_row_count 4 new_decoder))) with Ok d => d | _ => new_decoder end.

Theorem C40_size_refuted : exists d1 s1 s2, prepare_decode 5000 cw_tmp [wtab] sized_only = Ok (d1, [s1; s2]) /\ cd_owned d1 = Some 5000 /\ cd_width d1 * cd_height d1 = 32 /\
  byte_of s2 3 0 = 5032 /\ byte_of s1 1 0 = byte_of s2 0 0.
Proof. eexists. eexists. eexists. split; [vm_compute; reflexivity|]. vm_compute. auto. Qed.

(** An array of the caller with an element size and no stride has stride 0 when there is no
    other column: all rows are decoded to the same place. *)
Definition no_stride : cdecoder :=
  match column_set_data_array 0 8 0 (Some 2000) (add_column (str "a@t"%string) (set_row_count 4 new_decoder)) with Ok d => d | _ => new_decoder end.

Theorem C40_stride_refuted : exists d1 s, prepare_decode 5000 cw_tmp [wtab] no_stride = Ok (d1, [s]) /\ forall r, byte_of s r 0 = 2000.
Proof. eexists. eexists. split; [vm_compute; reflexivity|]. intros r. unfold byte_of. cbn [s_base s_stride]. lia. Qed.

(** A decoder with columns but no number of rows, which fill_in_decoder would take from the
    frame, is refused. *)
Theorem C40_no_rows_refuted : prepare_decode 5000 cw_tmp [wtab] (add_column (str "a@t"%string) new_decoder) = Throw AssertFailed.
Proof. vm_compute. reflexivity. Qed.
