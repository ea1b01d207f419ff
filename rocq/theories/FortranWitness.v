(** Concrete cases for C60, and what the Fortran interface does not do. *)
From Coq Require Import String.
From Verif Require Import Spec Base Fp Stream Codec Meta Header Encoder Table P_Frame Strided ColumnInfo CEncoder CEncSpec Quick Through P_CEncode CEncodeWitness Fortran FortranSpec P_Fortran P_FortranArray.
From Verif Require CFrames CDecoder.
Open Scope Z_scope.
Local Notation length := List.length.

(** The encoder of C50_witness, from Fortran: texts padded with blanks, columns from 1. *)
Definition described_columns : list fcall :=
  [EInit 0; EAddColumn 0 (str "lat@hdr   ") ty_INTEGER; EAddColumn 0 (str "flags") ty_BITFIELD; EAddColumn 0 (str "x ") ty_REAL; EAddColumn 0 (str "y ") ty_DOUBLE].
Definition text_column : list fcall := [EAddColumn 0 (str "s   ") ty_STRING; EColumnSetSize 0 5 None (Some 2)].
Definition extras : list fcall := [EColumnAddBitfield 0 2 (str "f1 ") 1; EColumnAddBitfield 0 2 (str "f2 ") 3; EAddProperty 0 (str "key  ") (str "value  ")].
Definition six : array := {| a_base := 1000; a_n1 := 2; a_n2 := 6; a_s1 := 8; a_s2 := 16 |}.
Definition six_rows : array := {| a_base := 1000; a_n1 := 6; a_n2 := 2; a_s1 := 8; a_s2 := 48 |}.

Lemma no_leftovers_by p : (forall n, (n < length p)%nat -> match nth_error p n with Some c => untouched (firstn n p) c | None => True end) -> no_leftovers p.
Proof.
  intros H q c r ->. specialize (H (length q)). rewrite app_length in H. cbn [length] in H. specialize (H ltac:(lia)). rewrite nth_error_app2, Nat.sub_diag in H by lia. cbn in H.
  now rewrite firstn_app, firstn_all, Nat.sub_diag, firstn_O, app_nil_r in H.
Qed.

Theorem C60_witness :
  let p0 := described_columns ++ text_column ++ extras in
  no_leftovers (p0 ++ [ESetData 0 six None]) /\ latest passes_edata true (p0 ++ [ESetData 0 six None]) true /\ contiguous six /\
  encoder_calls 0 (p0 ++ [ESetData 0 six None]) = from_array 8 /\
  latest passes_edata true (p0 ++ [ESetData 0 six_rows (Some false)]) false /\ contiguous six_rows /\
  encoder_calls 0 (p0 ++ [ESetData 0 six_rows (Some false)]) = from_array 0 /\
  (* the hypotheses of C60_roundtrip on the encoder are those of C50_witness *)
  (let e := reached quick tag wit_st (encoder_calls 0 (p0 ++ [ESetData 0 six None])) in readable e /\ configured e /\ ce_nrows e <= ce_max e /\
     valid_table wit_st tag (Z.to_nat (ce_nrows e)) (map described (ce_infos e)) (table_values (memory by_columns) e) (ce_props e)) /\
  Forall int_call (encoder_calls 0 (p0 ++ [ESetData 0 six None])) /\
  latest passes_init true ([] ++ [DInit 0 None]) true.
Proof.
  intros p0. assert (E8 : encoder_calls 0 (p0 ++ [ESetData 0 six None]) = from_array 8) by (vm_compute; reflexivity). rewrite E8.
  destruct C50_witness as (_ & W & _ & _ & IC & _).
  assert (NP : Forall (fun c => passes_edata c = None) p0) by (vm_compute; repeat constructor).
  split.
  { apply no_leftovers_by. cbn [length app p0 described_columns text_column extras]. intros n Hn. do 11 (destruct n as [|n]; [cbn; exact Logic.I || (repeat constructor; discriminate)|]). lia. }
  split; [right; split; [|reflexivity]; apply Forall_app; split; [exact NP|repeat constructor]|].
  split; [split; reflexivity|]. split; [reflexivity|].
  split; [left; exists p0, (ESetData 0 six_rows (Some false)), []; repeat split; constructor|].
  split; [split; reflexivity|]. split; [vm_compute; reflexivity|]. split; [exact W|]. split; [exact IC|]. right. split; [repeat constructor|reflexivity].
Qed.
Print Assumptions C60_witness.

(** The first four columns, one double each: the hypotheses of C60_elements. *)
Definition four : array := {| a_base := 1000; a_n1 := 2; a_n2 := 4; a_s1 := 8; a_s2 := 16 |}.
Theorem C60_elements_witness : let e := reached quick tag wit_st (encoder_calls 0 ((described_columns ++ extras) ++ ESetData 0 four None :: [])) in
  readable e /\ configured e /\ ce_nrows e <= ce_max e /\ Forall (fun ci => value_size ci = 8) (ce_infos e) /\
  valid_table wit_st tag (Z.to_nat (ce_nrows e)) (map described (ce_infos e)) (table_values (memory by_columns) e) (ce_props e).
Proof.
  intros e.
  assert (U : forall l, forallb (fun c => match ec_data c with Null => ec_stride c =? 0 | _ => false end) l = true -> Forall unset l).
  { intros l H. rewrite forallb_forall in H. apply Forall_forall. intros c Hc. specialize (H c Hc). split; destruct (ec_data c); try discriminate; [reflexivity|lia]. }
  assert (S8 : Forall (fun ci => value_size ci = 8) (ce_infos e)) by (apply Forall_forall; intros ci Hi; vm_compute in Hi; destruct Hi as [<-|[<-|[<-|[<-|[]]]]]; reflexivity).
  split.
  { split; [vm_compute; reflexivity|]. intros _. right. split; [vm_compute; split; reflexivity|]. eapply Forall_impl; [|exact S8]. intros ci H. cbv beta in H. rewrite H. vm_compute. reflexivity. }
  split.
  { split; [vm_compute; reflexivity|]. split; [vm_compute; reflexivity|]. split; [discriminate|]. split; [vm_compute; discriminate|]. split; [vm_compute; discriminate|].
    split; [apply U; vm_compute; reflexivity|discriminate]. }
  split; [vm_compute; discriminate|]. split; [exact S8|].
  assert (Q1 : map described (ce_infos e) = firstn 4 wit_cols) by (vm_compute; reflexivity).
  assert (Q2 : table_values (memory by_columns) e = firstn 4 wit_data) by (vm_compute; reflexivity).
  assert (Q3 : ce_props e = [(str "key", str "value")]) by (vm_compute; reflexivity).
  assert (Q4 : ce_nrows e = 2) by (vm_compute; reflexivity). rewrite Q1, Q2, Q3, Q4. destruct C19_witness as [V1 V2 V3 V4 V5 V6 V7 V8]. split; try assumption.
  - clear -V1. revert V1. generalize 4%nat. generalize wit_cols wit_data. induction l as [|c l IH]; intros l' n H; inversion H; subst; [destruct n; constructor|]. destruct n; cbn [firstn]; constructor; auto.
  - discriminate.
  - replace (map ci_name (firstn 4 wit_cols)) with (firstn 4 (map ci_name wit_cols)) by reflexivity. clear -V4. rewrite <- (firstn_skipn 4 (map ci_name wit_cols)) in V4. revert V4. generalize (firstn 4 (map ci_name wit_cols)) (skipn 4 (map ci_name wit_cols)). induction l as [|x l IH]; intros l0 V; [constructor|]. inversion V; subst. constructor; [|eapply IH; eassumption]. intros Q. apply H1. apply in_or_app. now left.
  - rewrite <- (firstn_skipn 4 wit_cols) in V5. apply Forall_app in V5. apply V5.
Qed.
Print Assumptions C60_elements_witness.

(** An omitted argument does not have its documented value once another was passed: after
    data in row major layout has been encoded, data given without column_major is taken
    to be in row major layout too; a decoder initialised without column_major is row
    major after another was; frame%next() aggregates after frame%next(maximum_rows=...);
    column_set_data_array without data reuses the last pointer. *)
Definition last_call (p : list fcall) : option ccall := nth_error (rev (issued start p)) 0.
Theorem C60_leftovers_refuted :
  last_call [EInit 0; ESetData 0 six None] = Some (CEnc 0 (SetDataArray (Some 1000) 48 2 8)) /\
  last_call [EInit 1; ESetData 1 six_rows (Some false); EInit 0; ESetData 0 six None] = Some (CEnc 0 (SetDataArray (Some 1000) 16 6 0)) /\
  last_call [DInit 0 (Some false); DInit 1 None] = Some (CDec 1 (DecMajor false)) /\
  last_call [FNext 0 None (Some 5); FNext 1 None None] = Some (CFrame (CFrames.NextAggregated 1 5)) /\
  last_call [DColumnSetArray 0 1 (Some 8) None (Some (Some 4000)); DColumnSetArray 0 2 (Some 8) None None] = Some (CDec 0 (DecColumnArray 1 8 0 (Some 4000))) /\
  ~ no_leftovers [DInit 0 (Some false); DInit 1 None].
Proof.
  do 5 (split; [reflexivity|]). intros N. specialize (N [DInit 0 (Some false)] (DInit 1 None) [] eq_refl). cbn in N. inversion N; subst. specialize (H1 false eq_refl). discriminate.
Qed.
Print Assumptions C60_leftovers_refuted.

(** The distances between the elements of an array are not looked at: of the section
    data(:, 1:3:2) the encoder takes data(:, 1:2). *)
Theorem C60_section_refuted : let section := {| a_base := 1000; a_n1 := 1; a_n2 := 2; a_s1 := 8; a_s2 := 16 |} in
  let e := reached quick tag doubles (encoder_calls 0 [EInit 0; EAddColumn 0 (str "a") ty_DOUBLE; EAddColumn 0 (str "b") ty_DOUBLE; ESetData 0 section None]) in
  element section 1 2 = 1016 /\ value_byte e 1 0 0 = 1008 /\ configured e.
Proof.
  intros section e. split; [reflexivity|]. split; [vm_compute; reflexivity|]. split; [vm_compute; reflexivity|]. split; [vm_compute; reflexivity|]. split; [discriminate|].
  split; [vm_compute; discriminate|]. split; [vm_compute; discriminate|]. split; [|discriminate]. vm_compute. repeat constructor.
Qed.
Print Assumptions C60_section_refuted.
