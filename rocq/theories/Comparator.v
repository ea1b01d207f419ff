(** Comparator.{h,cc}: comparing two files row by row. *)
From Verif Require Import Base Fp Stream Codec Meta Header Table Writer Reader RowReader.
Open Scope Z_scope.

(** ** Numbers *)

(** C++ [x / y] on doubles (round to nearest even).  The quotient is computed with more
    bits than a double has, the last one set if anything is left over.  Any NaN result is
    [qnan]. *)
Definition ddiv (x y : Z) : Z :=
  let s := if xorb (negb_ f64 x) (negb_ f64 y) then 2 ^ 63 else 0 in
  if is_nan f64 x || is_nan f64 y then qnan
  else if is_inf f64 x then if is_inf f64 y then qnan else s + inf_mag f64
  else if is_inf f64 y then s
  else
    let a := Z.abs (val f64 x) in
    let b := Z.abs (val f64 y) in
    if b =? 0 then if a =? 0 then qnan else s + inf_mag f64
    else
      let k := 1200 + Z.log2 b in
      let q := a * 2 ^ k / b in
      let m := 2 * q + (if a * 2 ^ k mod b =? 0 then 0 else 1) in
      s + round_mag f64 m (- (k + 1)).

(** fabs *)
Definition dabs (x : Z) : Z := mag f64 x.
(** [<=] on doubles *)
Definition dle (x y : Z) : bool := negb (is_nan f64 x) && negb (is_nan f64 y) && (key f64 x <=? key f64 y).

(** maxAbsoluteError, maxRelativeError = 1e-9, Comparator.h:33-34. *)
Definition tolerance : Z := 4472406533629990549. (* 0x3e112e0be826d695 *)

(** err, Comparator.h:66-76. *)
Definition err (a b : Z) : Z :=
  if dle (dabs a) tolerance || dle (dabs b) tolerance then dabs (dsub a b)
  else if dlt (dabs a) (dabs b) then dabs (ddiv (dsub a b) b)
  else dabs (ddiv (dsub a b) a).

(** same, Comparator.h:78. *)
Definition same (a b : Z) : bool := dlt (err a b) tolerance.

(** ** Rows *)

Section Compare.
Variable skip_missing : bool.   (* skipTestingHaveMissing_ *)
Variable nan_ok : bool.         (* NaN_isOK_: $odc_NAN_IS_OK *)

(** *pdata: the first double of a cell.  (A cell holds bytes, so mod changes nothing.) *)
Definition first_double (cell : list Z) : Z := le_val (firstn 8 cell) mod 2 ^ 64.

(** isMissing1, isMissing2: Comparator.cc:124-143. *)
Definition is_missing (c : column) (cell : list Z) : bool :=
  (negb (c_hasMissing (col_coder c) =? 0) || skip_missing) && (first_double cell =? missing_value (col_coder c)).

Definition both_nan (a b : Z) : bool := nan_ok && (is_nan f64 a && is_nan f64 b).

(** One column of a row, Comparator.cc:117-183: true if no difference is found.  An unknown
    type is a failed ASSERT, which is counted as a difference. *)
Definition compare_cell (c1 c2 : column) (x y : list Z) : bool :=
  let m1 := is_missing c1 x in
  let m2 := is_missing c2 y in
  if negb (Bool.eqb m1 m2) then false
  else if m1 then true
  else
    let t := col_type c1 in
    let a := first_double x in
    let b := first_double y in
    if t =? ty_STRING then
      (* strnlen(pdata, width) and strncmp, Comparator.cc:153-159 *)
      bytes_eqb (until_nul (firstn (Z.to_nat (width c1)) x)) (until_nul (firstn (Z.to_nat (width c2)) y))
    else if (t =? ty_INTEGER) || (t =? ty_BITFIELD) || (t =? ty_DOUBLE) then same a b || both_nan a b
    else if t =? ty_REAL then same (f2d (d2f a)) (f2d (d2f b)) || both_nan a b
    else false.

(** All columns of a row, Comparator.cc:98-206, from column [i] on: the number of
    differences.  [skip] are the columns still to be skipped.  (The cells are found by
    adding up dataSizeDoubles(), which is what the reader does to lay them out.) *)
Fixpoint differences (i : nat) (skip : list nat) (cs1 cs2 : list column) (r1 r2 : list (list Z)) : nat :=
  match cs1, cs2, r1, r2 with
  | c1 :: cs1', c2 :: cs2', x :: r1', y :: r2' =>
      let go_on skip' := differences (S i) skip' cs1' cs2' r1' r2' in
      let check := ((if compare_cell c1 c2 x y then 0 else 1) + go_on skip)%nat in
      match skip with
      | k :: skip' => if (k =? i)%nat then go_on skip' else check
      | [] => check
      end
  | _, _, _, _ => O
  end.

(** Comparator.cc:207-212.  (It is a plain eckit::Exception that is thrown; SeriousBug
    stands for it.) *)
Definition compare_row (skip : list nat) (cs1 cs2 : list column) (r1 r2 : list (list Z)) : outcome unit :=
  if (differences 0 skip cs1 cs2 r1 r2 =? 0)%nat then Ok tt else Throw SeriousBug.

(** ** Columns *)

Variables (no_type excluded : list (list Z)).   (* excludedColumnsTypes, excludedColumns *)

Definition listed (names : list (list Z)) (n : list Z) : bool := existsb (bytes_eqb n) names.

Fixpoint list_eqb {A} (eqb : A -> A -> bool) (l m : list A) : bool :=
  match l, m with
  | [], [] => true
  | x :: l', y :: m' => eqb x y && list_eqb eqb l' m'
  | _, _ => false
  end.

(** The checks of one column that is not skipped, Comparator.cc:236-256. *)
Definition columns_match (c1 c2 : column) : bool :=
  (listed no_type (col_name c1) ||
     (col_type c1 =? col_type c2) &&
     (negb (col_type c1 =? ty_BITFIELD) ||
        list_eqb bytes_eqb (col_bfnames c1) (col_bfnames c2) && list_eqb Z.eqb (col_bfsizes c1) (col_bfsizes c2))) &&
  (skip_missing || (c_hasMissing (col_coder c1) =? c_hasMissing (col_coder c2))).

(** Comparator.cc:215-262: the columns to skip. *)
Fixpoint compare_columns_from (i : nat) (cs1 cs2 : list column) : outcome (list nat) :=
  match cs1, cs2 with
  | c1 :: cs1', c2 :: cs2' =>
      do _ <- assert (bytes_eqb (col_name c1) (col_name c2));
      if listed excluded (col_name c1) then
        do s <- compare_columns_from (S i) cs1' cs2'; Ok (i :: s)
      else
        do _ <- assert (columns_match c1 c2);
        compare_columns_from (S i) cs1' cs2'
  | _, _ => Ok []
  end.

Definition compare_columns (cs1 cs2 : list column) : outcome (list nat) :=
  do _ <- assert (length cs1 =? length cs2)%nat;
  compare_columns_from 0 cs1 cs2.

(** ** Files *)

Variable md5 : list Z -> list Z.
Variables st1 st2 : settings.
Variables junk1 junk2 : nat -> nat -> list Z.

(** The loop over the rows, Comparator.h:118-131; [fuel] bounds the number of rows. *)
Fixpoint compare_loop (fuel : nat) (skip : list nat) (it1 it2 : riter) : outcome unit :=
  match fuel with
  | O => UB
  | S f =>
      if negb (r_end it1) && negb (r_end it2) then
        do s1 <- (if r_new it1 then compare_columns (r_cols it1) (r_cols it2) else Ok skip);
        do s2 <- (if r_new it2 then compare_columns (r_cols it1) (r_cols it2) else Ok s1);
        do _ <- compare_row s2 (r_cols it1) (r_cols it2) (r_last it1) (r_last it2);
        do (i1, _) <- next_row md5 st1 junk1 it1;
        do (i2, _) <- next_row md5 st2 junk2 it2;
        compare_loop f s2 i1 i2
      else
        do _ <- assert (r_end it1);
        assert (r_end it2)
  end.

(** Reader::begin, Reader.cc:56-60. *)
Definition begin_rows (st : settings) (junk : nat -> nat -> list Z) (file : list Z) : outcome riter :=
  do it <- open_rows md5 st junk file;
  do (it1, _) <- next_row md5 st junk it;
  Ok it1.

(** compare, Comparator.cc:57-69 and 71-86 with Comparator.h:98-132. *)
Definition compare_files (fuel : nat) (file1 file2 : list Z) : outcome unit :=
  do i1 <- begin_rows st1 junk1 file1;
  do i2 <- begin_rows st2 junk2 file2;
  do skip <- compare_columns (r_cols i1) (r_cols i2);
  compare_loop fuel skip i1 i2.

End Compare.
