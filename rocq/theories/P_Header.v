(** C03, C04, C05: frame headers. *)
From Coq Require Import String.
From Verif Require Import Spec Base Fp Stream StreamProofs StreamLocal Codec Meta Header Encoder Table
  StringProofs ColumnProofs HeaderProofs Md5 Through.
Open Scope Z_scope.

(** ** C03.  [serialize_loop md5 fuel cap ..] runs the serialiser with an initial buffer of
    [cap] bytes, making at most [fuel] retries ([None]: more are needed). *)
Theorem C03_buffer_size : forall md5 o dataSize nrows pr cs, digest md5 ->
  exists result,
    (forall cap, 57 <= cap -> exists fuel, serialize_loop md5 fuel cap o dataSize nrows pr cs = Some result) /\
    (forall cap fuel r, 57 <= cap -> serialize_loop md5 fuel cap o dataSize nrows pr cs = Some r -> r = result).
Proof.
  intros md5 o ds nr pr cs Hd. exists (serialize_header md5 o ds nr pr cs). split.
  - intros cap Hc. destruct (serialize_loop_ends md5 Hd cap o ds nr pr cs Hc) as [fuel H]. exists fuel.
    destruct (serialize_loop md5 fuel cap o ds nr pr cs) as [r|] eqn:E; [|congruence]. f_equal. now apply serialize_loop_ok in E.
  - intros cap fuel r Hc E. now apply serialize_loop_ok in E.
Qed.
Print Assumptions C03_buffer_size.

(** Below 57 bytes the serialiser leaves its buffer, whatever it writes. *)
Theorem C03_too_small : forall md5 fuel cap o dataSize nrows pr cs, cap < 57 ->
  serialize_loop md5 fuel cap o dataSize nrows pr cs = Some UB.
Proof. intros. now apply serialize_loop_small. Qed.

Theorem C03_witness :
  serialize_loop md5 0 57 LE 0 0 [] [] = None /\
  match serialize_loop md5 1 57 LE 0 0 [] [] with Some (Ok h) => len h = 93 | _ => False end /\
  match serialize_loop md5 0 93 LE 0 0 [] [] with Some (Ok h) => len h = 93 | _ => False end.
Proof. vm_compute. repeat split. Qed.

(** ** C04 *)

(** columns that can be described in a header: lengths and statistics fit their fields,
    and the missing value converts to an integer where the reader converts it *)
Definition header_column (iad : bool) (o : order) (c : column) : Prop :=
  column_ok c /\ codec_ok iad (col_type c) (col_coder c) /\ c_ord (col_coder c) = o.

(** [c'] carries the information of [c] *)
Record same_column (c c' : column) : Prop := {
  sc_name : col_name c' = col_name c;
  sc_type : col_type c' = col_type c;
  sc_bits : col_type c = ty_BITFIELD -> col_bfnames c' = col_bfnames c /\ col_bfsizes c' = col_bfsizes c;
  sc_codec : c_kind (col_coder c') = c_kind (col_coder c);
  sc_order : c_ord (col_coder c') = c_ord (col_coder c);
  sc_flag : c_hasMissing (col_coder c') = c_hasMissing (col_coder c);
  sc_min : c_min (col_coder c') = c_min (col_coder c);
  sc_max : c_max (col_coder c') = c_max (col_coder c);
  sc_missing : c_missing (col_coder c') = c_missing (col_coder c);
  sc_strings : In (c_kind (col_coder c)) [KInt8String; KInt16String] -> c_strings (col_coder c') = c_strings (col_coder c);
  sc_long : c_kind (col_coder c) = KLongConstantString -> c_strings (col_coder c') = firstn 1 (c_strings (col_coder c))
}.

Theorem C04_header : forall md5 st o dataSize nrows pr cs, digest md5 ->
  int64 dataSize -> int64 nrows -> props_ok pr -> len31 cs -> Forall (header_column (iad st) o) cs ->
  exists h, serialize_header md5 o dataSize nrows pr cs = Ok h /\
    (len h < 2 ^ 31 -> forall body, exists s hd,
       read_magic (h ++ body) = Ok (Some s) /\ load_after_magic md5 st s = Ok (hd, body) /\
       h_order hd = o /\ h_dataSize hd = dataSize /\ h_rows hd = nrows /\ h_props hd = pr /\
       Forall2 same_column cs (h_cols hd)).
Proof.
  intros md5 st o ds nr pr cs Hd H1 H2 H3 H4 Hc.
  assert (F : exists cs', Forall2 (col_reloads st o) cs cs' /\ Forall2 same_column cs cs').
  { clear H4. induction Hc as [|c cs (A & B & C) Hc (cs' & F1 & F2)]; [exists []; split; constructor|].
    destruct (load_save_codec (iad st) (col_type c) (col_coder c) B) as (bytes & S & L).
    set (k' := reload_of (iad st) (col_type c) (col_coder c)) in *.
    assert (K : c_kind k' = c_kind (col_coder c)) by (unfold k', reload_of; destruct (c_kind (col_coder c)) eqn:E; reflexivity).
    assert (O : c_ord k' = c_ord (col_coder c)) by (unfold k', reload_of; destruct (c_kind (col_coder c)) eqn:E; reflexivity).
    exists (reload_column c k' :: cs'). split; constructor; auto.
    - exists k'. split; [assumption|]. split; [|reflexivity]. split; [assumption|]. split; [congruence|]. split; [assumption|].
      exists bytes. split; [assumption|]. intros rest. rewrite <- C. apply L.
    - split; cbn [reload_column col_name col_type col_bfnames col_bfsizes col_coder]; try reflexivity; try assumption.
      + intros ->. split; reflexivity.
      + unfold k', reload_of. destruct (c_kind (col_coder c)); reflexivity.
      + unfold k', reload_of. destruct (c_kind (col_coder c)); reflexivity.
      + unfold k', reload_of. destruct (c_kind (col_coder c)); reflexivity.
      + unfold k', reload_of. destruct (c_kind (col_coder c)); reflexivity.
      + unfold k', reload_of. destruct (c_kind (col_coder c)); cbn; intros Q; decompose [or] Q; try discriminate; try contradiction; reflexivity.
      + unfold k', reload_of. destruct (c_kind (col_coder c)); cbn; intros Q; try discriminate; reflexivity. }
  destruct F as (cs' & F1 & F2).
  destruct (load_serialized md5 Hd st o ds nr pr cs cs' H1 H2 H3 H4 F1) as (h & E & L).
  exists h. split; [exact E|]. intros Hl body. destruct (L Hl body) as (s & M & LL). exists s. eexists.
  split; [exact M|]. split; [exact LL|]. cbn [h_order h_dataSize h_rows h_props h_cols]. auto.
Qed.
Print Assumptions C04_header.

Definition sample_column : column :=
  {| col_name := str "flags@hdr"%string; col_type := ty_BITFIELD;
     col_bfnames := [str "a"%string; str "b"%string]; col_bfsizes := [1; 7];
     col_coder := set_stats (new_codec true BE KInt8Missing ty_BITFIELD) 1 (z2d 3) (z2d 99) integerMDI |}.

Theorem C04_witness : header_column true BE sample_column /\ props_ok [(str "k"%string, str "v"%string)] /\
  match serialize_header md5 BE 10 2 [(str "k"%string, str "v"%string)] [sample_column] with
  | Ok h => match read_magic (h ++ [1;2;3]) with
            | Ok (Some s) => match load_after_magic md5 doubles s with
                             | Ok (hd, body) => h_rows hd = 2 /\ h_cols hd = [sample_column] /\ body = [1;2;3]
                             | _ => False end
            | _ => False end
  | _ => False
  end.
Proof.
  split; [|split].
  - split; [|split; [|reflexivity]].
    + split; [vm_compute; reflexivity|vm_compute; intuition congruence|]. intros _.
      split; [vm_compute; reflexivity|]. split; [vm_compute; reflexivity|].
      split; (apply Forall_cons; [|apply Forall_cons; [|apply Forall_nil]]); vm_compute; intuition congruence.
    + assert (I : forall z, is64b z = true -> is64 z) by (unfold is64b, is64; intros; lia).
      split; [vm_compute; intuition congruence|apply I; vm_compute; reflexivity|apply I; vm_compute; reflexivity
             |apply I; vm_compute; reflexivity| | |intros _; vm_compute; reflexivity].
      * change (c_kind (col_coder sample_column)) with KInt8Missing. intros [H|[H|[H|[]]]]; discriminate.
      * change (c_kind (col_coder sample_column)) with KInt8Missing. discriminate.
  - split; [cbn; auto|]. split; [vm_compute; reflexivity|]. apply Forall_cons; [|apply Forall_nil]. split; vm_compute; reflexivity.
  - vm_compute. repeat split.
Qed.

(** ** C05 *)

(** the int32 at offset [off] of [s], in byte order [o] *)
Definition int_at (o : order) (s : list Z) (off : nat) : Z := signed 32 (le_val (swap o (firstn 4 (skipn off s)))).

(** the bytes from [a] to [b] *)
Definition slice (s : list Z) (a n : nat) : list Z := firstn n (skipn a s).

Lemma read_i32_at o s v s' : read_i32 o s = Ok (v, s') -> (4 <= List.length s)%nat /\ v = int_at o s 0 /\ s' = skipn 4 s.
Proof.
  unfold read_i32, read_uint, read_raw, int_at. destruct (Z.ltb_spec (Z.of_nat (List.length s)) 4); [discriminate|]. cbn [bind].
  intros E. inversion E; subst. split; [lia|]. split; reflexivity.
Qed.

Lemma skipn_skipn' {A} a b (l : list A) : skipn a (skipn b l) = skipn (b + a) l.
Proof. revert l; induction b as [|b IH]; intros l; cbn [Nat.add]; [reflexivity|]. destruct l; [now rewrite !skipn_nil|]. cbn. apply IH. Qed.

Lemma int_at_firstn o s n off : (off + 4 <= n)%nat -> int_at o (firstn n s) off = int_at o s off.
Proof. intros H. unfold int_at. rewrite skipn_firstn_comm, firstn_firstn. repeat f_equal. lia. Qed.

Lemma int_at_skipn o s k off : int_at o (skipn k s) off = int_at o s (k + off).
Proof. unfold int_at. now rewrite skipn_skipn'. Qed.

Lemma read_magic_inv s s1 : read_magic s = Ok (Some s1) ->
  (5 <= List.length s)%nat /\ firstn 5 s = [255; 255; 79; 68; 65] /\ s1 = skipn 5 s.
Proof.
  unfold read_magic. destruct s as [|b0 s0] eqn:Es; [discriminate|]. rewrite <- Es. clear Es.
  destruct (Nat.ltb_spec (List.length s) 5); [discriminate|].
  destruct (bytes_eqb (firstn 5 s) _) eqn:B; [|discriminate]. apply bytes_eqb_eq in B.
  intros E. inversion E. auto.
Qed.

(** A table is returned only if the magic number is there, the version is supported
    and the digest in the header is that of the header body. *)
Theorem C05_accepted : forall md5 st est file pos t, digest md5 ->
  read_table md5 st est file pos = Ok (Some t) ->
  let s := skipn (Z.to_nat pos) file in
  let o := t_order t in
  let size := int_at o s 53 in
  slice s 0 5 = [255; 255; 79; 68; 65] /\
  int_at o s 9 <= 0 /\ 4 <= int_at o s 13 <= 5 /\
  0 <= size /\ 57 + size <= len s /\
  slice s 21 32 = md5 (slice s 57 (Z.to_nat size)).
Proof.
  intros md5 st est file pos t Hd H s o size. unfold read_table in H. apply bind_ok in H as (m & M & H).
  destruct m as [s1|]; [|discriminate]. apply bind_ok in H as ((h & rest) & L & H).
  assert (Ho : t_order t = h_order h) by (destruct (_ && _) in H; inversion H; reflexivity).
  unfold size, o in *. clear size o. rewrite Ho in *. clear H Ho. fold (from file pos) in s.
  change (from file pos) with s in M.
  apply read_magic_inv in M as (L5 & B & ->).
  unfold load_after_magic in L. rewrite skipn_length in L.
  destruct (Nat.ltb_spec (List.length s - 5) 4); [discriminate|].
  set (o := if _ =? 1 then LE else BE) in L.
  unfold load_header in L. rewrite skipn_skipn' in L. cbn [Nat.add] in L. rewrite skipn_length in L.
  destruct (Nat.ltb_spec (List.length s - 9) 48); [discriminate|].
  apply bind_ok in L as ((dg & hs) & LB & L). rewrite skipn_skipn' in L. cbn [Nat.add] in L.
  destruct (Z.ltb_spec hs 0); [discriminate|]. rewrite skipn_length in L.
  destruct (Z.ltb_spec (Z.of_nat (List.length s - 57)) hs); [discriminate|].
  destruct (bytes_eqb dg _) eqn:D; [|discriminate]. apply bytes_eqb_eq in D.
  apply bind_ok in L as (h' & LV & L). inversion L; subst h' rest.
  assert (Oh : h_order h = o).
  { clear -LV. unfold load_variable in LV. repeat (apply bind_ok in LV as (? & _ & LV)). 
    repeat match goal with x : _ * _ |- _ => destruct x end.
    repeat match type of LV with bind _ _ = _ => apply bind_ok in LV as (? & _ & LV); repeat match goal with x : _ * _ |- _ => destruct x end end.
    inversion LV. reflexivity. }
  clear LV L. unfold load_basic in LB.
  apply bind_ok in LB as ((major & b1) & R1 & LB). apply bind_ok in LB as (u1 & A1 & LB).
  apply bind_ok in LB as ((minor & b2) & R2 & LB). apply bind_ok in LB as (u2 & A2 & LB).
  apply bind_ok in LB as ((dg' & b3) & R3 & LB). apply bind_ok in LB as ((hs' & b4) & R4 & LB). inversion LB; subst dg' hs'. clear LB.
  apply read_i32_at in R1 as (_ & -> & ->). apply read_i32_at in R2 as (_ & -> & ->).
  unfold read_string in R3. apply bind_ok in R3 as ((n & b5) & R5 & R3). apply read_i32_at in R5 as (_ & -> & ->).
  set (n := int_at o _ 0) in R3. destruct (Z.ltb_spec n 0); [discriminate|].
  remember (skipn 4 (skipn 4 (skipn 4 (firstn 48 (skipn 9 s))))) as L eqn:EL.
  unfold read_raw in R3. destruct (Z.ltb_spec (Z.of_nat (List.length L)) n); [discriminate|].
  inversion R3 as [[E1 E2]]. rewrite <- E1 in D. subst b3. clear R3 E1 dg.
  assert (N : n = 32).
  { pose proof (f_equal (@List.length Z) D) as Q. rewrite Hd, firstn_length in Q. lia. }
  subst L. rewrite N in *. apply read_i32_at in R4 as (_ & -> & _).
  rewrite !skipn_skipn' in *. cbn [Nat.add] in *. change (Z.to_nat 32) with 32%nat in *.
  assert (I : forall k off, (k + off + 4 <= 48)%nat -> int_at o (skipn k (firstn 48 (skipn 9 s))) off = int_at o s (9 + k + off)).
  { intros k off Hk. rewrite int_at_skipn, int_at_firstn, int_at_skipn by lia. reflexivity. }
  rewrite (I 44%nat 0%nat) in * by lia. change (9 + 44 + 0)%nat with 53%nat in *. rewrite (I 4%nat 0%nat) in A2 by lia. cbn [Nat.add] in *.
  unfold assert in A1, A2. rewrite Oh in *.
  rewrite int_at_firstn, int_at_skipn in A1 by lia. cbn [Nat.add] in A1.
  destruct (Z.leb_spec (int_at o s 9) 0) as [M1|]; [|discriminate].
  destruct ((int_at o s 13 <=? 5) && (3 <? int_at o s 13)) eqn:M2; [|discriminate].
  split; [exact B|]. split; [exact M1|]. split; [lia|]. split; [lia|].
  split; [unfold len; lia|]. unfold slice. rewrite <- D. rewrite skipn_firstn_comm, firstn_firstn, skipn_skipn'. reflexivity.
Qed.
Print Assumptions C05_accepted.

(** "No more tables" is answered only at the end of the data. *)
Theorem C05_end : forall md5 st est file pos, read_table md5 st est file pos = Ok None <-> skipn (Z.to_nat pos) file = [].
Proof.
  intros. unfold read_table, from. destruct (skipn (Z.to_nat pos) file) as [|b s] eqn:E.
  - cbn. tauto.
  - split; [|discriminate]. intros H. exfalso. apply bind_ok in H as (m & M & H). destruct m.
    + apply bind_ok in H as ((h & rest) & _ & H). destruct (_ && _) in H; discriminate.
    + unfold read_magic in M. destruct (_ <? 5)%nat in M; [discriminate|]. destruct (bytes_eqb _ _) in M; discriminate.
Qed.
Print Assumptions C05_end.

(** Hence: altering the body of a header without altering its digest is noticed, up to
    collisions of the digest. *)
Theorem C05_altered : forall md5 st est file pos o size, digest md5 ->
  let s := skipn (Z.to_nat pos) file in
  s <> [] -> slice s 5 4 = w_int o 4 1 -> int_at o s 53 = size ->
  slice s 21 32 <> md5 (slice s 57 (Z.to_nat size)) ->
  forall t, read_table md5 st est file pos <> Ok t.
Proof.
  intros md5 st est file pos o size Hd s Hs Ho Hz Hne t E. destruct t as [t|].
  - pose proof E as E0. apply C05_accepted in E; [|assumption]. cbv zeta in E. fold s in E.
    assert (t_order t = o) as Q.
    { unfold read_table in E0. apply bind_ok in E0 as (m & M & E0). destruct m as [s1|]; [|discriminate].
      apply bind_ok in E0 as ((h & rest) & L & E0).
      assert (Ht : t_order t = h_order h) by (destruct (_ && _) in E0; inversion E0; reflexivity). rewrite Ht. clear E0 E Ht.
      fold (from file pos) in s. change (from file pos) with s in M. apply read_magic_inv in M as (L5 & B & ->).
      unfold load_after_magic in L. destruct (_ <? 4)%nat in L; [discriminate|].
      change (firstn 4 (skipn 5 s)) with (slice s 5 4) in L. rewrite Ho, order_word in L.
      unfold load_header in L. destruct (_ <? 48)%nat in L; [discriminate|]. apply bind_ok in L as ((dg & hs) & LB & L).
      destruct (_ <? 0) in L; [discriminate|]. destruct (_ <? hs) in L; [discriminate|]. destruct (bytes_eqb _ _) in L; [|discriminate].
      apply bind_ok in L as (h' & LV & L). inversion L; subst h' rest. clear -LV. unfold load_variable in LV.
      repeat (apply bind_ok in LV as (? & _ & LV)). repeat match goal with x : _ * _ |- _ => destruct x end.
      repeat match type of LV with bind _ _ = _ => apply bind_ok in LV as (? & _ & LV); repeat match goal with x : _ * _ |- _ => destruct x end end.
      inversion LV. reflexivity. }
    rewrite Q, Hz in E. tauto.
  - apply C05_end in E. contradiction.
Qed.
Print Assumptions C05_altered.

(** flip one bit of the name of the column in a frame of a column "x" *)
Theorem C05_witness :
  match encode_frame md5 odc_tag doubles LE [col_x ty_INTEGER 8] [{| cd_size := 8; cd_cells := [int_cell false 5] |}] [] with
  | Ok b =>
      match read_table md5 doubles (len b) b 0 with Ok (Some t) => t_rows t = 1 | _ => False end /\
      read_table md5 doubles (len b) (firstn 60 b ++ [Z.lxor (nth 60 b 0) 1] ++ skipn 61 b) 0 = Throw Invalid
  | _ => False
  end.
Proof. vm_compute. split; reflexivity. Qed.
