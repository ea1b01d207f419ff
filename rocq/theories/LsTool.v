(** tools/LSTool.cc: what "odc ls" prints of a file. *)
From Coq Require Import String.
From Verif Require Import Base Fp Stream Codec Meta Header Encoder Table Writer Reader RowReader Comparator Scan Dispatcher HeaderTool.
Open Scope Z_scope.
Local Notation length := List.length.

(** out << std::fixed << x, with the default precision of 6: the exact value of the double rounded to a
    millionth, ties to even (C's printf with "%.6f"). *)
Definition fixed_text (x : Z) : list Z :=
  (if negb_ f64 x then str "-" else []) ++
  (if is_nan f64 x then str "nan"
   else if is_inf f64 x then str "inf"
   else let n := rne (mag_val f64 (mag f64 x) * 10 ^ 6) 1074 in
        digits 320 (n / 10 ^ 6) ++ str "." ++ map (fun k => 48 + (n mod 10 ^ 6) / 10 ^ k mod 10) [5; 4; 3; 2; 1; 0]).

(** One value, LSTool.cc:56-84, with IteratorProxy.h:110-114 (string) and 123-127 (isMissing: the bits
    are compared); [md] is the column of the tool's copy, [c] that of the iterator. *)
Definition ls_cell (md c : column) (cell : list Z) : outcome (list Z) :=
  let bits := le_val (firstn 8 cell) in
  if negb (c_hasMissing (col_coder c) =? 0) && (missing_value (col_coder c) =? bits) then Ok (str ".")
  else if (col_type md =? ty_INTEGER) || (col_type md =? ty_BITFIELD) then do v <- d2i32 bits; Ok (decimal v)
  else if (col_type md =? ty_REAL) || (col_type md =? ty_DOUBLE) then Ok (fixed_text bits)
  else if col_type md =? ty_STRING then
    Ok (str "'" ++ until_nul (firstn (Z.to_nat (8 * data_size_doubles (col_coder c))) cell) ++ str "'")
  else Throw AssertFailed.

(** The loop over the columns, LSTool.cc:54-86: what is printed, and how it ends. *)
Fixpoint ls_cells (spacer : list Z) (md cs : list column) (cells : list (list Z)) {struct md} : list Z * outcome unit :=
  match md, cs, cells with
  | [], _, _ => ([], Ok tt)
  | m :: md', c :: cs', x :: cells' =>
      match ls_cell m c x with
      | Ok t => let (r, o) := ls_cells [9] md' cs' cells' in (spacer ++ t ++ r, o)
      | Throw e => (spacer, Throw e)
      | UB => (spacer, UB)
      end
  | _, _, _ => ([], UB)
  end.

(** The line of the names, LSTool.cc:47-52. *)
Fixpoint ls_names (spacer : list Z) (md : list column) : list Z :=
  match md with [] => [] | m :: md' => spacer ++ col_name m ++ ls_names [9] md' end.

Section Ls.
Variable md5 : list Z -> list Z.
Variable st : settings.
Variable junk : nat -> nat -> list Z.

(** printData, LSTool.cc:34-90: what is printed, the number of rows returned, and how it ends. *)
Fixpoint ls_loop (fuel : nat) (it : riter) (md : list column) (n : Z) : list Z * Z * ending :=
  match fuel with
  | O => ([], n, OutOfFuel)
  | S f =>
      if r_end it then ([], n, Clean)
      else
        let fresh := negb (md_equal md (r_cols it)) in
        let md1 := if fresh then r_cols it else md in
        let head := if fresh then ls_names [] md1 ++ [10] else [] in
        match ls_cells [] md1 (r_cols it) (r_last it) with
        | (t, Ok _) =>
            match next_row md5 st junk it with
            | Ok (it1, _) => let '(r, n1, e) := ls_loop f it1 md1 (n + 1) in (head ++ t ++ [10] ++ r, n1, e)
            | Throw e => (head ++ t ++ [10], n, Failed e)
            | UB => (head ++ t ++ [10], n, Undefined)
            end
        | (t, Throw e) => (head ++ t, n, Failed e)
        | (t, UB) => (head ++ t, n, Undefined)
        end
  end.
Definition ls_file (fuel : nat) (file : list Z) : list Z * Z * ending :=
  match begin_rows md5 st junk file with
  | Ok it => ls_loop fuel it [] 0
  | Throw e => ([], 0, Failed e)
  | UB => ([], 0, Undefined)
  end.
End Ls.
