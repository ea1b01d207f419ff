(** Concrete cases for C50, and what the C API encoder does not do. *)
From Coq Require Import String.
From Verif Require Import Spec Base Fp Stream Codec Meta Header Encoder Table Reader P_Frame Strided CEncoder CEncSpec CCallSpec Quick Through P_CEncode P_CEncodeRead P_CCalls.
Open Scope Z_scope.

(** ** The table of C19_witness in memory, row by row and column by column *)

Definition word (k : nat) (cell : list Z) : list Z := firstn 8 (skipn (8 * k) cell).
Definition by_rows : list Z := concat (map (fun r => concat (map (fun d => nth r (cd_cells d) []) wit_data)) [0; 1]%nat).
Definition by_columns : list Z :=
  concat (map (fun d => concat (map (fun k => concat (map (word k) (cd_cells d))) (seq 0 (Z.to_nat (cd_size d / 8))))) wit_data).
Definition memory (l : list Z) : mem := fun a => nth (Z.to_nat (a - 1000)) l 170.

Definition tag : list Z := str "odc version 1.6.2"%string.
Definition add_columns : list call :=
  [AddColumn (str "lat@hdr"%string) ty_INTEGER; AddColumn (str "flags"%string) ty_BITFIELD; AddColumn (str "x"%string) ty_REAL; AddColumn (str "y"%string) ty_DOUBLE;
   AddColumn (str "s"%string) ty_STRING; SetDataSize 4 16; AddBitfield 1 (str "f1"%string) 1; AddBitfield 1 (str "f2"%string) 3; AddProperty (str "key"%string) (str "value"%string)].
Definition from_array (major : Z) : list call := add_columns ++ [SetDataArray (Some 1000) 48 2 major].
Definition from_columns : list call :=
  add_columns ++ [SetRowCount 2; SetColumnArray 0 8 48 (Some 1000); SetColumnArray 1 8 48 (Some 1008); SetColumnArray 2 8 48 (Some 1016); SetColumnArray 3 8 48 (Some 1024);
                  SetColumnArray 4 16 48 (Some 1032)].

Lemma reads (calls : list call) (l : list Z) : let e := reached quick tag wit_st calls in
  map described (ce_infos e) = wit_cols -> table_values (memory l) e = wit_data -> ce_props e = [(str "key"%string, str "value"%string)] -> ce_nrows e = 2 ->
  valid_table wit_st tag (Z.to_nat (ce_nrows e)) (map described (ce_infos e)) (table_values (memory l) e) (ce_props e).
Proof. intros e -> -> -> ->. exact C19_witness. Qed.

Theorem C50_witness :
  (let e := reached quick tag wit_st (from_array 0) in readable e /\ configured e /\ ce_nrows e <= ce_max e /\
     valid_table wit_st tag (Z.to_nat (ce_nrows e)) (map described (ce_infos e)) (table_values (memory by_rows) e) (ce_props e)) /\
  (let e := reached quick tag wit_st (from_array 8) in readable e /\ configured e /\ ce_nrows e <= ce_max e /\
     valid_table wit_st tag (Z.to_nat (ce_nrows e)) (map described (ce_infos e)) (table_values (memory by_columns) e) (ce_props e)) /\
  (let e := reached quick tag wit_st from_columns in readable e /\ configured e /\ ce_nrows e <= ce_max e /\
     valid_table wit_st tag (Z.to_nat (ce_nrows e)) (map described (ce_infos e)) (table_values (memory by_rows) e) (ce_props e)) /\
  Forall int_call (from_array 0) /\ Forall int_call (from_array 8) /\ Forall int_call from_columns.
Proof.
  assert (U : forall l, forallb (fun c => match ec_data c with Null => ec_stride c =? 0 | _ => false end) l = true -> Forall unset l).
  { intros l H. rewrite forallb_forall in H. apply Forall_forall. intros c Hc. specialize (H c Hc). split; destruct (ec_data c); try discriminate; [reflexivity|lia]. }
  split; [|split; [|split]].
  - intros e. split; [split; [vm_compute; reflexivity|intros _; left; reflexivity]|]. split.
    { split; [vm_compute; reflexivity|]. split; [vm_compute; reflexivity|]. split; [discriminate|]. split; [vm_compute; discriminate|]. split; [vm_compute; discriminate|].
      split; [apply U; vm_compute; reflexivity|reflexivity]. }
    split; [vm_compute; discriminate|]. apply reads; vm_compute; reflexivity.
  - intros e. split; [split; [vm_compute; reflexivity|intros _; right; split; [vm_compute; split; reflexivity|]]|].
    { apply Forall_forall. intros ci Hi. vm_compute in Hi. destruct Hi as [<-|[<-|[<-|[<-|[<-|[]]]]]]; reflexivity. }
    split.
    { split; [vm_compute; reflexivity|]. split; [vm_compute; reflexivity|]. split; [discriminate|]. split; [vm_compute; discriminate|]. split; [vm_compute; discriminate|].
      split; [apply U; vm_compute; reflexivity|discriminate]. }
    split; [vm_compute; discriminate|]. apply reads; vm_compute; reflexivity.
  - intros e. split; [split; [vm_compute; reflexivity|intros Q; contradiction]|]. split.
    { split; [vm_compute; reflexivity|]. split; [vm_compute; reflexivity|]. split; [discriminate|].
      change (Forall own_array [{| ec_data := At 1000; ec_stride := 48 |}; {| ec_data := At 1008; ec_stride := 48 |}; {| ec_data := At 1016; ec_stride := 48 |}; {| ec_data := At 1024; ec_stride := 48 |}; {| ec_data := At 1032; ec_stride := 48 |}]).
      repeat (apply Forall_cons; [eexists; reflexivity|]). apply Forall_nil. }
    split; [vm_compute; discriminate|]. apply reads; vm_compute; reflexivity.
  - split; [|split]; unfold from_array, from_columns, add_columns; cbn [app]; repeat (apply Forall_cons; [cbn [int_call]; try exact I; split; vm_compute; reflexivity || discriminate|]); apply Forall_nil.
Qed.

(** ** A DOUBLE column *)

Definition ones : mem := fun a => if a mod 8 =? 6 then 240 else if a mod 8 =? 7 then 63 else 0.
Definition col_d : list call := [AddColumn (str "x"%string) ty_DOUBLE].
Definition at_end (calls : list call) : list Z * outcome unit := snd (encode_handle quick tag doubles ones (reached quick tag doubles calls)).
Definition rows_read (b : list Z) : list Z * ending := let r := read_tables quick doubles 0 b 5 [] in (map t_rows (fst r), snd r).

Theorem C50_computed :
  let r := at_end (col_d ++ [SetDataArray (Some 800) 8 3 0; SetRowsPerFrame 2]) in rows_read (fst r) = ([2; 1], Clean) /\ snd r = Ok tt.
Proof. vm_compute. split; reflexivity. Qed.

(** An encoder used for an array of one row and then for an array of two rows encodes one
    row of the second. *)
Theorem C50_rows_refuted :
  let r := at_end (col_d ++ [SetDataArray (Some 800) 8 1 0; EncodeFrom ones; SetDataArray (Some 800) 8 2 0]) in rows_read (fst r) = ([1], Clean) /\ snd r = Ok tt.
Proof. vm_compute. split; reflexivity. Qed.

(** A rejected request for an array is not without effect: the columns are reset, and an
    encoder that would refuse to encode its array again now does. *)
Theorem C50_rejected_refuted :
  let used := col_d ++ [SetDataArray (Some 800) 8 1 0; EncodeFrom ones] in
  snd (set_data_array (Some 800) 8 1 5 (reached quick tag doubles used)) = Throw AssertFailed /\
  snd (at_end used) = Throw AssertFailed /\ snd (at_end (used ++ [SetDataArray (Some 800) 8 1 5])) = Ok tt.
Proof. vm_compute. repeat split. Qed.

(** Array columns wider than the values: bytes beyond a copy of size 0 are read. *)
Theorem C50_wide_refuted : snd (at_end (col_d ++ [SetDataArray (Some 800) 16 1 16])) = UB.
Proof. vm_compute. reflexivity. Qed.

(** A member of a negative number of bits is accepted. *)
Theorem C50_negative_refuted :
  map ci_bits (ce_infos (reached quick tag doubles [AddColumn (str "x"%string) ty_BITFIELD; AddBitfield 0 (str "a"%string) 8; AddBitfield 0 (str "b"%string) (-3)])) =
  [[(str "a"%string, 8); (str "b"%string, -3)]].
Proof. vm_compute. reflexivity. Qed.

(** a file that does not fit the buffer of the caller *)
Theorem C50_buffer_witness :
  let e := reached quick tag doubles (col_d ++ [SetDataArray (Some 800) 8 1 0]) in
  let r := snd (encode_buffer quick tag doubles ones 20 e) in List.length (fst r) = 20%nat /\ snd r = Throw AssertFailed.
Proof. vm_compute. split; reflexivity. Qed.
Print Assumptions C50_witness.

(** ** What calls ask for: a size and a member are refused, a property is given twice *)
Definition asking : list call :=
  [SetDataSize 0 8; AddColumn (str "a"%string) ty_BITFIELD; SetDataSize 0 12; SetDataSize 0 16; AddBitfield 0 (str "f"%string) 30; AddBitfield 0 (str "g"%string) 5;
   AddBitfield 0 (str "h"%string) 2; AddProperty (str "k"%string) (str "old"%string); AddProperty (str "k"%string) (str "new"%string); SetDataArray (Some 64) 16 7 0].

Theorem C50_calls_witness : Forall int_call asking /\ declared asking = [(str "a"%string, ty_BITFIELD)] /\ sized 0 asking 16 /\
  members_of 0 asking = [(str "f"%string, 30); (str "h"%string, 2)] /\ property_of (str "k"%string) asking = Some (str "new"%string) /\ rows_of asking = None /\ heights asking = [7].
Proof.
  split; [|split; [|split; [|split; [|split; [|split]]]]].
  - unfold asking. repeat apply Forall_cons; try apply Forall_nil; cbn [int_call]; try exact Logic.I; lia.
  - vm_compute. reflexivity.
  - left. exists (firstn 3 (numbered 0 asking)), (1, SetDataSize 0 16), (skipn 4 (numbered 0 asking)). split; [reflexivity|]. split.
    + split; [cbn [fst]; lia|]. split; [split; [lia|reflexivity]|]. now left.
    + assert (B : forallb (fun nc => match snd nc with SetDataSize _ _ | SetColumnArray _ _ _ _ => false | _ => true end) (skipn 4 (numbered 0 asking)) = true) by (vm_compute; reflexivity).
      rewrite forallb_forall in B. intros nc s Hin (_ & _ & Q). specialize (B nc Hin). destruct Q as [Q|(? & ? & _ & Q)]; rewrite Q in B; discriminate B.
  - vm_compute. reflexivity.
  - vm_compute. reflexivity.
  - vm_compute. reflexivity.
  - vm_compute. reflexivity.
Qed.
Print Assumptions C50_calls_witness.
