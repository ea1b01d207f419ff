(** Concrete cases for C20 - C22. *)
From Coq Require Import String.
From Verif Require Import Spec RowSpec Base Fp Stream Codec Meta Header Encoder Table P_Decode P_Project.
Open Scope Z_scope.

(** two DOUBLE columns, stored as they are, with bytes for doubles abbreviated *)
Definition c8 (b : Z) : list Z := repeat b 8.
Definition wcol (nm : string) : column :=
  {| col_name := str nm; col_type := ty_DOUBLE; col_bfnames := []; col_bfsizes := []; col_coder := new_codec true LE KLongReal ty_DOUBLE |}.
(** row 0 leaves out the first column, row 1 stores both, row 2 only the second, row 3 none *)
Definition wrows : list stored_row := [(1%nat, [c8 1]); (0%nat, [c8 2; c8 3]); (1%nat, [c8 4]); (2%nat, [])].
Definition wbytes : list Z := [0;1] ++ c8 1 ++ [0;0] ++ c8 2 ++ c8 3 ++ [0;1] ++ c8 4 ++ [0;2].
Definition wtab : table := {| t_start := 0; t_data := 0; t_next := 40; t_size := 40; t_order := LE; t_props := [];
  t_cols := [wcol "a@t"%string; wcol "b@t"%string]; t_rows := 4 |}.
Definition warr (n : nat) (b : Z) : facade := {| f_size := 8; f_elems := repeat (c8 b) n |}.

Theorem C20_witness :
  row_stream (map col_coder (t_cols wtab)) wrows wbytes [] /\ read_encoded wbytes false wtab = Ok wbytes /\
  t_rows wtab = Z.of_nat (List.length wrows) /\ NoDup (map col_name (t_cols wtab)) /\
  Forall2 (fun nm p => select (map col_name (t_cols wtab)) nm = Some p) [str "b"%string; str "a@t"%string] [1%nat; 0%nat] /\
  shows wrows 0 3 1 (c8 2) /\ unset wrows 0 0 /\ shows wrows 1 3 2 (c8 4).
Proof.
  split.
  { unfold wbytes, wrows. cbn [map t_cols wtab].
    eapply (rs_cons _ 1 _ _ [0;1]); [reflexivity|reflexivity|cbn; lia|econstructor; [reflexivity|constructor]|].
    eapply (rs_cons _ 0 _ _ [0;0]); [reflexivity|reflexivity|cbn; lia|econstructor; [reflexivity|econstructor; [reflexivity|constructor]]|].
    eapply (rs_cons _ 1 _ _ [0;1]); [reflexivity|reflexivity|cbn; lia|econstructor; [reflexivity|constructor]|].
    eapply (rs_cons _ 2 _ _ [0;2] []); [reflexivity|reflexivity|cbn; lia|constructor|constructor]. }
  split; [reflexivity|]. split; [reflexivity|]. split.
  { repeat constructor; cbn; intuition discriminate. }
  split; [repeat constructor|]. split; [|split].
  - split; [lia|]. split; [reflexivity|]. intros q Hq. destruct q as [|[|[|[|q]]]]; try lia; reflexivity.
  - intros q Hq. assert (q = 0%nat) as -> by lia. reflexivity.
  - split; [lia|]. split; [reflexivity|]. intros q Hq. destruct q as [|[|[|[|q]]]]; try lia; reflexivity.
Qed.

Theorem C20_computed :
  decode_target wbytes wtab [str "b"%string; str "a@t"%string] [warr 5 9; warr 6 7] =
  Ok [Some {| f_size := 8; f_elems := [c8 1; c8 3; c8 4; c8 4; c8 9] |};
      Some {| f_size := 8; f_elems := [le_bytes 8 realMDI; c8 2; c8 2; c8 2; c8 7; c8 7] |}].
Proof. vm_compute. reflexivity. Qed.

(** one column alone *)
Theorem C21_witness :
  decode_target wbytes wtab [str "a"%string] [warr 6 7] =
  Ok [Some {| f_size := 8; f_elems := [le_bytes 8 realMDI; c8 2; c8 2; c8 2; c8 7; c8 7] |}].
Proof. vm_compute. reflexivity. Qed.

Theorem C22_witness :
  decode_target wbytes wtab [str "c"%string] [warr 6 7] = Throw DecodeError /\
  decode_target wbytes wtab [str "a"%string; str "a@t"%string] [warr 6 7; warr 6 7] = Throw DecodeError /\
  decode_target wbytes {| t_start := 0; t_data := 0; t_next := 40; t_size := 40; t_order := LE; t_props := [];
     t_cols := [wcol "a"%string; wcol "a"%string]; t_rows := 4 |} [str "a"%string] [warr 6 7] = Throw DecodeError /\
  decode_target wbytes wtab [str "a"%string] [warr 3 7] = Throw AssertFailed.
Proof. vm_compute. repeat split. Qed.
