(** Model of Table::decode (src/odc/core/Table.cc:120-236) on arrays in memory: the same
    steps as Table.v, but the decoder now has arrays (Strided.v) instead of lists of
    elements, and its effect is the sequence of accesses it makes to their memory. *)
From Verif Require Import Base Fp Stream Codec Meta Header Table Strided.
Open Scope Z_scope.

(** An access: storing the bytes a codec produces at an element (with no regard to the
    element size, Table.cc:186, 213), or StridedData::fill (Table.cc:205, 229). *)
Inductive op :=
| OStore (s : strided) (row : nat) (b : list Z)
| OFill (s : strided) (src fin : nat).

(** The accesses made so far, and the result. *)
Definition traced (A : Type) : Type := (list op * outcome A)%type.
Definition tret {A} (a : A) : traced A := ([], Ok a).
Definition lift {A} (x : outcome A) : traced A := ([], x).
Definition emit (o : op) : traced unit := ([o], Ok tt).
Definition tbind {A B} (x : traced A) (f : A -> traced B) : traced B :=
  match x with
  | (ops, Ok a) => let (ops', r) := f a in (ops ++ ops', r)
  | (ops, Throw e) => (ops, Throw e)
  | (ops, UB) => (ops, UB)
  end.

(** Effect of the accesses on memory.  The fuel of fill is the number of rows to fill; a
    loop that needs more does not end (see C26_zero_stride_refuted), written UB here. *)
Definition exec_op (o : op) (m : mem) : outcome mem :=
  match o with
  | OStore s row b => Ok (store m (get s (Z.of_nat row)) b)
  | OFill s src fin =>
      match mfill (fin - src) s (Z.of_nat src) (Z.of_nat fin) m with Some r => r | None => UB end
  end.
Fixpoint exec (ops : list op) (m : mem) : outcome mem :=
  match ops with
  | [] => Ok m
  | o :: ops' => do m' <- exec_op o m; exec ops' m'
  end.

(** State of one column: Table.cc:131-133, 195. *)
Record mcol := { m_codec : codec; m_arr : option strided; m_last : nat }.

(** Table.cc:138-160. *)
Fixpoint mattach (full simple : smap Z) (nrows : Z) (names : list (list Z)) (arrs : list strided)
  (cols : list mcol) : outcome (list mcol) :=
  match names, arrs with
  | nm :: names', s :: arrs' =>
      do p <- lookup_name full simple nm;
      match nth_error cols (Z.to_nat p) with
      | None => UB
      | Some c =>
          match m_arr c with
          | Some _ => Throw DecodeError
          | None =>
              do _ <- assert (nrows <=? s_nelem s);
              mattach full simple nrows names' arrs'
                (list_set cols (Z.to_nat p) {| m_codec := m_codec c; m_arr := Some s; m_last := m_last c |})
          end
      end
  | _, _ => Ok cols
  end.

Fixpoint map_mcols (f : mcol -> traced mcol) (cols : list mcol) : traced (list mcol) :=
  match cols with
  | [] => tret []
  | c :: cs => tbind (f c) (fun c' => tbind (map_mcols f cs) (fun cs' => tret (c' :: cs')))
  end.

(** Table.cc:182-190. *)
Definition mprefill (c : mcol) : traced mcol :=
  match m_arr c with
  | None => tret c
  | Some s => tbind (emit (OStore s 0 (le_bytes 8 (missing_value (m_codec c))))) (fun _ => tret c)
  end.

(** Table.cc:203-209, 226-231, with the ASSERT at the head of fill. *)
Definition mfill_col (last : nat) (c : mcol) : traced mcol :=
  match m_arr c with
  | None => tret c
  | Some s =>
      tbind (lift (assert (m_last c <=? last)%nat)) (fun _ =>
      tbind (emit (OFill s (m_last c) last)) (fun _ => tret c))
  end.

(** Table.cc:211-219. *)
Fixpoint mdecode_cols (row : nat) (cols : list mcol) (st : list Z) : traced (list mcol * list Z) :=
  match cols with
  | [] => tret ([], st)
  | c :: cs =>
      tbind (match m_arr c with
             | Some s =>
                 tbind (lift (decode (m_codec c) st)) (fun r =>
                 tbind (emit (OStore s row (fst r))) (fun _ =>
                 tret ({| m_codec := m_codec c; m_arr := Some s; m_last := row |}, snd r)))
             | None => tbind (lift (skip (m_codec c) st)) (fun r => tret (c, snd r))
             end) (fun r =>
      tbind (mdecode_cols row cs (snd r)) (fun rs => tret (fst r :: fst rs, snd rs)))
  end.

(** Table.cc:199-221. *)
Definition mdecode_row (row lastStart : nat) (cols : list mcol) (st : list Z) : traced (nat * list mcol * list Z) :=
  tbind (lift (read_raw 2 st)) (fun ms =>
  let start := marker_val (fst ms) in
  tbind (if (start <? lastStart)%nat then
           if (length cols <? lastStart)%nat then lift UB
           else tbind (map_mcols (mfill_col (row - 1)) (firstn (lastStart - start) (skipn start cols)))
                      (fun mid => tret (firstn start cols ++ mid ++ skipn lastStart cols))
         else tret cols) (fun cols1 =>
  tbind (mdecode_cols row (skipn start cols1) (snd ms)) (fun ds =>
  tret (start, firstn start cols1 ++ fst ds, snd ds)))).

Fixpoint mdecode_rows (n row lastStart : nat) (cols : list mcol) (st : list Z) : traced (list mcol) :=
  match n with
  | O => tret cols
  | S n' => tbind (mdecode_row row lastStart cols st) (fun r => mdecode_rows n' (S row) (fst (fst r)) (snd (fst r)) (snd r))
  end.

(** Table.cc:226-235. *)
Fixpoint mfinal_fill (nrows : nat) (cols : list mcol) : traced (list mcol) :=
  match cols with
  | [] => tret []
  | c :: cs =>
      if (m_last c <? nrows - 1)%nat then
        tbind (mfill_col (nrows - 1) c) (fun c' => tbind (mfinal_fill nrows cs) (fun cs' => tret (c' :: cs')))
      else tret cols
  end.

(** Table::decode, Table.cc:120-236. *)
Definition mdecode_table (file : list Z) (t : table) (names : list (list Z)) (arrs : list strided) : traced (list mcol) :=
  tbind (lift (column_lookup (t_cols t))) (fun lk =>
  tbind (lift (assert (length names =? length arrs)%nat)) (fun _ =>
  tbind (lift (assert (length names <=? length (t_cols t))%nat)) (fun _ =>
  tbind (lift (mattach (fst lk) (snd lk) (t_rows t) names arrs
                 (map (fun c => {| m_codec := col_coder c; m_arr := None; m_last := 0 |}) (t_cols t)))) (fun cols =>
  tbind (lift (read_encoded file false t)) (fun buf =>
  if t_rows t =? 0 then tret cols
  else
    tbind (map_mcols mprefill cols) (fun cols1 =>
    tbind (mdecode_rows (Z.to_nat (t_rows t)) 0 0 cols1 buf) (fun cols2 =>
    mfinal_fill (Z.to_nat (t_rows t)) cols2))))))).
