(** Concrete cases for C34. *)
From Coq Require Import String.
From Verif Require Import Base Fp Stream Codec Meta Header Table TableProofs RowSpec Spec Reader P_Tables P_Decode DecodeWitness Span SpanProofs SpanTable P_Span.
Open Scope Z_scope.
Open Scope list_scope.

Definition s_col (nm : string) (ty : Z) (k : codec) : column :=
  {| col_name := str nm; col_type := ty; col_bfnames := []; col_bfsizes := []; col_coder := k |}.
Definition d_seven : Z := 4619567317775286272.
Definition seven : codec :=
  let k := new_codec true LE KConstant ty_INTEGER in
  {| c_kind := KConstant; c_int64 := false; c_ord := LE; c_hasMissing := 0; c_missing := c_missing k; c_min := d_seven; c_max := d_seven;
     c_seenFltMin := false; c_seenFltMax := false; c_strings := []; c_lookup := c_lookup k; c_dsd := c_dsd k |}.
Definition chars8 : codec :=
  let k := new_codec true LE KChars ty_STRING in
  {| c_kind := KChars; c_int64 := c_int64 k; c_ord := LE; c_hasMissing := 0; c_missing := c_missing k; c_min := c_min k; c_max := c_max k;
     c_seenFltMin := false; c_seenFltMax := false; c_strings := []; c_lookup := c_lookup k; c_dsd := 1 |}.
Definition s_cols : list column := [s_col "x@t" ty_DOUBLE (new_codec true LE KLongReal ty_DOUBLE); s_col "n@t" ty_INTEGER seven; s_col "s@t" ty_STRING chars8].
Definition text (t : string) : list Z := pad 8 (str t).
(** x = 0.0, -0.0, NaN-free bytes; the second row repeats x, the third repeats x and n *)
Definition s_rows : list stored_row :=
  [(0%nat, [c8 1; le_bytes 8 d_seven; text "ab"]); (1%nat, [le_bytes 8 d_seven; text "c"]); (0%nat, [c8 2; le_bytes 8 d_seven; text "ab"]); (2%nat, [text "longtext"])].
Definition s_bytes : list Z := [0;0] ++ c8 1 ++ text "ab" ++ [0;1] ++ text "c" ++ [0;0] ++ c8 2 ++ text "ab" ++ [0;2] ++ text "longtext".
Definition s_tab : table := {| t_start := 0; t_data := 0; t_next := 56; t_size := 56; t_order := LE; t_props := []; t_cols := s_cols; t_rows := 4 |}.
Definition s_names : list (list Z) := [str "s"; str "x@t"; str "n"].
Definition s_outs : list facade :=
  [{| f_size := 8; f_elems := [text "ab"; text "c"; text "ab"; text "longtext"] |};
   {| f_size := 8; f_elems := [c8 1; c8 1; c8 2; c8 2] |};
   {| f_size := 8; f_elems := [le_bytes 8 d_seven; le_bytes 8 d_seven; le_bytes 8 d_seven; le_bytes 8 d_seven] |}].

Lemma called_nth cs nm p : (forall j c, nth_error cs j = Some c -> name_matches (col_name c) nm = (j =? p)%nat) -> (p < List.length cs)%nat ->
  forall j, positions cs nm j <-> j = p.
Proof.
  intros H Hp j. unfold positions. split.
  - intros (c & Hc & Q). apply name_matches_called in Q. rewrite (H j c Hc) in Q. now apply Nat.eqb_eq in Q.
  - intros ->. destruct (nth_error cs p) as [c|] eqn:E; [|apply nth_error_None in E; lia]. exists c. split; [reflexivity|]. apply name_matches_called. rewrite (H p c E). apply Nat.eqb_refl.
Qed.

(** the hypotheses of C34_span and C34_frame are met *)
Theorem C34_witness : decodes_to true s_bytes s_names s_tab [2%nat; 0%nat; 1%nat] s_rows s_outs.
Proof.
  split; [|split].
  - split; [repeat constructor; cbn; intuition discriminate|]. split; [|split; [|split; [|split; [|split]]]].
    + constructor; [|constructor; [|constructor; [|constructor]]]; (split; [reflexivity|]; apply called_nth; [|cbn; lia]; intros [|[|[|j]]] c Hc; try (injection Hc as <-; reflexivity); destruct j; discriminate).
    + repeat constructor; cbn; intuition discriminate.
    + repeat constructor; cbn; intuition discriminate.
    + exists s_bytes, []. split; [vm_compute; reflexivity|]. unfold s_bytes, s_rows. cbn [map t_cols s_tab s_cols].
      eapply (rs_cons _ 0 _ _ [0;0]); [reflexivity|reflexivity|cbn; lia|econstructor; [reflexivity|econstructor; [reflexivity|econstructor; [reflexivity|constructor]]]|].
      eapply (rs_cons _ 1 _ _ [0;1]); [reflexivity|reflexivity|cbn; lia|econstructor; [reflexivity|econstructor; [reflexivity|constructor]]|].
      eapply (rs_cons _ 0 _ _ [0;0]); [reflexivity|reflexivity|cbn; lia|econstructor; [reflexivity|econstructor; [reflexivity|econstructor; [reflexivity|constructor]]]|].
      eapply (rs_cons _ 2 _ _ [0;2]); [reflexivity|reflexivity|cbn; lia|econstructor; [reflexivity|constructor]|]. constructor.
    + reflexivity.
    + intros p [<-|[<-|[<-|[]]]]; discriminate.
  - exists [warr 4 9; warr 4 9; warr 4 9]. split; [|vm_compute; reflexivity].
    assert (W : forall p, (p < 3)%nat -> fits_rows s_rows p (warr 4 9)).
    { intros p Hp. split; [cbn; lia|]. split; [cbn; lia|]. split; [repeat constructor|]. intros r cell St.
      destruct p as [|[|[|p]]]; [| | |lia]; (destruct r as [|[|[|[|r]]]]; unfold stored in St; cbn [s_rows nth_error Nat.leb Nat.sub] in St; try discriminate St; [..|destruct r; discriminate St]; apply (f_equal (fun x => match x with Some c => List.length c | None => 0%nat end)) in St; cbn [List.length] in St; rewrite <- St; vm_compute; discriminate). }
    do 3 (constructor; [apply W; lia|]). constructor.
  - intros k p c out Hp Hc Ho. destruct k as [|[|[|k]]]; [| | |destruct k; discriminate];
      injection Hp as <-; injection Hc as <-; injection Ho as <-.
    + split; [split; [right; right; reflexivity|cbn; lia]|]. intros r Hr. split; intros Q; discriminate Q.
    + split; [split; [right; left; reflexivity|exact I]|]. intros r Hr. split; [intros Q; discriminate Q|]. intros _.
      cbn in Hr. destruct r as [|[|[|[|r]]]]; [..|lia]; vm_compute; reflexivity.
    + split; [split; [left; reflexivity|split; [split; [discriminate|reflexivity]|reflexivity]]|]. intros r Hr. split; [|intros Q; discriminate Q]. intros _ _. exists 7.
      cbn in Hr. destruct r as [|[|[|[|r]]]]; [..|lia]; (split; [vm_compute; reflexivity|split; discriminate || reflexivity]).
Qed.

Theorem C34_computed : table_span true s_bytes s_tab s_names false =
  Ok {| sp_start := 0; sp_length := 56; sp_ints := [(str "n", [7])]; sp_reals := [(str "x@t", [le_val (c8 1); le_val (c8 2)])];
        sp_strs := [(str "s", [str "ab"; str "c"; str "longtext"])] |}.
Proof. vm_compute. reflexivity. Qed.

(** Beyond the hypotheses the claim is false.  A frame without rows whose column has the
    'constant' codec: nothing decodes, but the span has a value. *)
Definition no_rows : table := {| t_start := 0; t_data := 0; t_next := 0; t_size := 0; t_order := LE; t_props := []; t_cols := [s_col "n" ty_INTEGER seven]; t_rows := 0 |}.
Theorem C34_no_rows_refuted :
  (exists outs, decode_target [] no_rows [str "n"] [warr 0 9] = Ok (map Some outs)) /\
  exists s, table_span true [] no_rows [str "n"] false = Ok s /\ has s (str "n") (Int 7).
Proof. split; [exists [warr 0 9]; vm_compute; reflexivity|]. eexists. split; [vm_compute; reflexivity|]. vm_compute. auto. Qed.

(** A constant string of more than 8 bytes: the span has only its first 8 bytes, which are
    no value of the column. *)
Definition long_const : codec :=
  let k := new_codec true LE KLongConstantString ty_STRING in
  {| c_kind := KLongConstantString; c_int64 := c_int64 k; c_ord := LE; c_hasMissing := 0; c_missing := c_missing k;
     c_min := le_val (str "abcdefgh"); c_max := le_val (str "abcdefgh");
     c_seenFltMin := false; c_seenFltMax := false; c_strings := [str "abcdefghijkl"]; c_lookup := c_lookup k; c_dsd := 2 |}.
Definition long_tab : table := {| t_start := 0; t_data := 0; t_next := 2; t_size := 2; t_order := LE; t_props := []; t_cols := [s_col "s" ty_STRING long_const]; t_rows := 1 |}.
Theorem C34_long_constant_refuted :
  decode_target [0;0] long_tab [str "s"] [{| f_size := 16; f_elems := [repeat 9 16] |}] = Ok [Some {| f_size := 16; f_elems := [pad 16 (str "abcdefghijkl")] |}] /\
  exists s, table_span true [0;0] long_tab [str "s"] false = Ok s /\ has s (str "s") (Text (str "abcdefgh")) /\ ~ has s (str "s") (Text (str "abcdefghijkl")).
Proof.
  split; [vm_compute; reflexivity|]. eexists. split; [vm_compute; reflexivity|]. split; [vm_compute; auto|]. vm_compute. intros [Q|[]]. discriminate Q.
Qed.

(** A first row that leaves out a leading column, as the row writer does for columns that
    begin with missing values: the missing value is decoded but not in the span. *)
Theorem C34_leading_missing_refuted :
  decode_target wbytes wtab [str "a"] [warr 4 7] = Ok [Some {| f_size := 8; f_elems := [le_bytes 8 realMDI; c8 2; c8 2; c8 2] |}] /\
  exists s, table_span true wbytes wtab [str "a"] false = Ok s /\ has s (str "a") (Real (le_val (c8 2))) /\ ~ has s (str "a") (Real realMDI).
Proof.
  split; [vm_compute; reflexivity|]. eexists. split; [vm_compute; reflexivity|]. split.
  - exists (le_val (c8 2)). split; [left; vm_compute; reflexivity|vm_compute; reflexivity].
  - intros (z & Hz & Q). vm_compute in Hz. destruct Hz as [Hz|[]]. subst z. vm_compute in Q. discriminate Q.
Qed.
