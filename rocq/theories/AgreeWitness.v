(** Concrete cases for C58. *)
From Coq Require Import String.
From Verif Require Import Base Fp Stream Codec Meta Header Encoder Table Reader ReadSpec Quick Through Writer RowReader RowList
  Spec WriterSpec EncodeWitness WriterWitness MdSetWitness P_Tables.
From Verif Require Import RowSpec AgreeSpec.
Open Scope Z_scope.
Local Notation length := List.length.

(** A table of a text and a number, its rows stored as in the format: the second row leaves
    out the text, the third stores both. *)
Definition acols : list column :=
  [{| col_name := str "s"; col_type := ty_STRING; col_bfnames := []; col_bfsizes := []; col_coder := new_codec true LE KChars ty_STRING |};
   {| col_name := str "d@t"; col_type := ty_DOUBLE; col_bfnames := []; col_bfsizes := []; col_coder := new_codec true LE KLongReal ty_DOUBLE |}].
Definition abody (m : Z) : list Z :=
  [0; 0] ++ str "abcdefgh" ++ le_bytes 8 d_one ++ [0; m] ++ (if m =? 1 then le_bytes 8 0 else []) ++ [0; 0] ++ str "xy      " ++ le_bytes 8 d_one.
Definition afile (m : Z) : list Z :=
  match serialize_header quick LE (Z.of_nat (length (abody m))) 3 [] acols with Ok h => h ++ abody m | _ => [] end.
Definition atable (m : Z) : table :=
  match read_table quick doubles 0 (afile m) 0 with Ok (Some t) => t | _ => {| t_start := 0; t_data := 0; t_next := 0; t_size := 0; t_order := LE; t_props := []; t_cols := []; t_rows := 0 |} end.
Definition asrows : list stored_row := [(0%nat, [str "abcdefgh"; le_bytes 8 d_one]); (1%nat, [le_bytes 8 0]); (0%nat, [str "xy      "; le_bytes 8 d_one])].
Definition aarr (n : nat) : facade := {| f_size := 8; f_elems := repeat (repeat 7 8) n |}.

(** The file meets the hypotheses, the table stores those rows. *)
Theorem C58_witness :
  bytes_ok (afile 1) /\ length (afile 1) = 241%nat /\
  (exists rows, file_rows quick doubles noise 9 (afile 1) = (rows, Clean) /\ length rows = 3%nat) /\
  stores (afile 1) (atable 1) asrows /\ NoDup (map col_name (t_cols (atable 1))) /\ Forall sound (t_cols (atable 1)) /\
  Forall2 (fun nm p => select (map col_name (t_cols (atable 1))) nm = Some p) [str "d"; str "s"] [1%nat; 0%nat] /\
  Forall2 (fun p f => exists c, nth_error (t_cols (atable 1)) p = Some c /\ has_room 3 c f) [1%nat; 0%nat] [aarr 3; aarr 4].
Proof.
  assert (Q : map (fun c => (col_name c, col_coder c)) (t_cols (atable 1)) = map (fun c => (col_name c, col_coder c)) acols) by (vm_compute; reflexivity).
  assert (C : map col_coder (t_cols (atable 1)) = map col_coder acols).
  { apply (f_equal (map snd)) in Q. rewrite !map_map in Q. exact Q. }
  assert (Nm : map col_name (t_cols (atable 1)) = [str "s"; str "d@t"]) by (vm_compute; reflexivity).
  split; [apply bytes_okb_ok; vm_compute; reflexivity|]. split; [vm_compute; reflexivity|]. split.
  { destruct (file_rows quick doubles noise 9 (afile 1)) as [rows e] eqn:E. exists rows.
    assert (P : (length (fst (file_rows quick doubles noise 9 (afile 1))), snd (file_rows quick doubles noise 9 (afile 1))) = (3%nat, Clean)) by (vm_compute; reflexivity).
    rewrite E in P. cbn [fst snd] in P. split; congruence. }
  split; [|split; [|split; [|split]]].
  - split; [vm_compute; reflexivity|]. exists (abody 1), []. split; [vm_compute; reflexivity|]. rewrite C. unfold abody, asrows. cbn [map acols col_coder Z.eqb Pos.eqb].
    eapply (rs_cons _ 0 _ _ [0;0]); [reflexivity|reflexivity|cbn; lia|econstructor; [vm_compute; reflexivity|econstructor; [vm_compute; reflexivity|constructor]]|].
    eapply (rs_cons _ 1 _ _ [0;1]); [reflexivity|reflexivity|cbn; lia|econstructor; [vm_compute; reflexivity|constructor]|].
    eapply (rs_cons _ 0 _ _ [0;0]); [reflexivity|reflexivity|cbn; lia|econstructor; [vm_compute; reflexivity|econstructor; [vm_compute; reflexivity|constructor]]|]. constructor.
  - rewrite Nm. constructor; [intros [E|[]]; vm_compute in E; discriminate E|]. constructor; [intros []|constructor].
  - assert (F : Forall (fun k => 1 <= data_size_doubles k /\ 8 * data_size_doubles k < 2 ^ 64) (map col_coder (t_cols (atable 1)))).
    { rewrite C. constructor; [vm_compute; split; congruence|]. constructor; [vm_compute; split; congruence|constructor]. }
    rewrite Forall_map in F. exact F.
  - rewrite Nm. constructor; [vm_compute; reflexivity|]. constructor; [vm_compute; reflexivity|constructor].
  - assert (H : forall p n, (p < 2)%nat -> (3 <= n)%nat -> exists c, nth_error (t_cols (atable 1)) p = Some c /\ has_room 3 c (aarr n)).
    { intros p n Hp Hn. assert (E : option_map col_coder (nth_error (t_cols (atable 1)) p) = nth_error (map col_coder acols) p) by (rewrite <- C; symmetry; apply nth_error_map).
      destruct (nth_error (t_cols (atable 1)) p) as [c|]; [|destruct p as [|[|p]]; [discriminate E|discriminate E|lia]].
      exists c. split; [reflexivity|]. assert (data_size_doubles (col_coder c) = 1) as D.
      { cbn [option_map] in E. destruct p as [|[|p]]; [| |lia]; cbn [nth_error map acols] in E; match type of E with Some ?a = Some ?b => assert (a = b) as -> by congruence end; vm_compute; reflexivity. }
      unfold has_room. rewrite D. split; [cbn; lia|]. unfold aarr. cbn [f_elems f_size]. split; [now rewrite repeat_length|]. clear. induction n; cbn [repeat]; constructor; [reflexivity|assumption]. }
    constructor; [apply H; lia|]. constructor; [apply H; lia|constructor].
Qed.
Print Assumptions C58_witness.

(** Without the condition on the stored rows: in a file whose second row claims to begin past
    the last column, the rows can be read one by one, and decoding the table is undefined. *)
Theorem C58_marker_refuted :
  (exists rows, file_rows quick doubles noise 9 (afile 3) = (rows, Clean) /\ length rows = 3%nat) /\
  (exists t, read_tables quick doubles 0 (afile 3) 2 [] = ([t], Clean) /\ decode_target (afile 3) t [str "d"] [aarr 3] = UB).
Proof.
  split.
  - destruct (file_rows quick doubles noise 9 (afile 3)) as [rows e] eqn:E. exists rows.
    assert (P : (length (fst (file_rows quick doubles noise 9 (afile 3))), snd (file_rows quick doubles noise 9 (afile 3))) = (3%nat, Clean)) by (vm_compute; reflexivity).
    rewrite E in P. cbn [fst snd] in P. split; congruence.
  - eexists. split; [vm_compute; reflexivity|vm_compute; reflexivity].
Qed.
Print Assumptions C58_marker_refuted.
