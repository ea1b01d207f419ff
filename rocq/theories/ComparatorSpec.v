(** Specification vocabulary: when the compare tool takes two values to be the same. *)
From Verif Require Import Base Fp Codec Stream Meta Header Writer Reader RowReader Spec.
From Verif Require Export RowList.
Open Scope Z_scope.

(** The value of a double is given in units of 2^-1074, of which every finite double is a
    whole multiple ([val f64]). *)
Definition one : Z := 2 ^ 1074.

(** The double nearest to 1e-9, and the largest double below it. *)
Definition tol : Z := 4835703278458517 * 2 ^ 992.
Definition tol_below : Z := 4835703278458516 * 2 ^ 992.

(** The difference of [a] and [b] is less than [tol]: absolutely if one of them is at most
    [tol], else relative to the larger. *)
Definition closer (a b : Z) : Prop :=
  (Z.abs a <= tol \/ Z.abs b <= tol) /\ Z.abs (a - b) < tol \/
  tol < Z.abs a /\ tol < Z.abs b /\ Z.abs (a - b) * one < tol * Z.max (Z.abs a) (Z.abs b).

(** The same with "at most [tol_below]". *)
Definition near (a b : Z) : Prop :=
  (Z.abs a <= tol \/ Z.abs b <= tol) /\ Z.abs (a - b) <= tol_below \/
  tol < Z.abs a /\ tol < Z.abs b /\ Z.abs (a - b) * one <= tol_below * Z.max (Z.abs a) (Z.abs b).

(** [tol] is within 1e-25 of 1e-9: 10^9 tol = 1 up to 2^-53. *)
Theorem tol_is_1e_9 : Z.abs (tol * 10 ^ 9 - one) * 2 ^ 53 < one.
Proof. vm_compute. reflexivity. Qed.

(** ** Cells *)

(** the 64 bits at the start of a cell *)
Definition bits (cell : list Z) : Z := le_val (firstn 8 cell) mod 2 ^ 64.

(** A cell counts as missing if it holds the missing value of its column, and the column
    says it has missing values ([any]: whatever it says). *)
Definition missing (any : bool) (c : column) (cell : list Z) : Prop :=
  (c_hasMissing (col_coder c) <> 0 \/ any = true) /\ bits cell = missing_value (col_coder c).

(** Two finite numbers in the relation [rel]; two NaNs if [nans]. *)
Definition numbers (rel : Z -> Z -> Prop) (nans : bool) (f : Z -> Z) (a b : Z) : Prop :=
  is_fin f64 (f a) = true /\ is_fin f64 (f b) = true /\ rel (val f64 (f a)) (val f64 (f b)) \/
  nans = true /\ is_nan f64 a = true /\ is_nan f64 b = true.

(** The cells [x] and [y] of the columns [c1] and [c2] agree. *)
Definition cells_agree (rel : Z -> Z -> Prop) (any nans : bool) (c1 c2 : column) (x y : list Z) : Prop :=
  missing any c1 x /\ missing any c2 y \/
  ~ missing any c1 x /\ ~ missing any c2 y /\
  (col_type c1 = ty_STRING /\
     until_nul (firstn (Z.to_nat (width c1)) x) = until_nul (firstn (Z.to_nat (width c2)) y) \/
   (col_type c1 = ty_INTEGER \/ col_type c1 = ty_BITFIELD \/ col_type c1 = ty_DOUBLE) /\
     numbers rel nans (fun v => v) (bits x) (bits y) \/
   col_type c1 = ty_REAL /\ numbers rel nans as_single (bits x) (bits y)).

(** ** Rows *)

(** Columns that may be compared: the same name and, unless the column is excluded, the
    same type (not demanded for the columns [no_type]), bitfields and missing flag. *)
Definition alike (any : bool) (no_type excluded : list (list Z)) (c1 c2 : column) : Prop :=
  col_name c1 = col_name c2 /\
  (In (col_name c1) excluded \/
   (In (col_name c1) no_type \/
      col_type c1 = col_type c2 /\
      (col_type c1 = ty_BITFIELD -> col_bfnames c1 = col_bfnames c2 /\ col_bfsizes c1 = col_bfsizes c2)) /\
   (any = true \/ c_hasMissing (col_coder c1) = c_hasMissing (col_coder c2))).

Definition rows_agree (rel : Z -> Z -> Prop) (any nans : bool) (no_type excluded : list (list Z)) (r1 r2 : arow) : Prop :=
  Forall2 (alike any no_type excluded) (fst r1) (fst r2) /\
  length (snd r1) = length (fst r1) /\ length (snd r2) = length (fst r2) /\
  forall i c1 c2 x y, nth_error (fst r1) i = Some c1 -> nth_error (fst r2) i = Some c2 ->
    nth_error (snd r1) i = Some x -> nth_error (snd r2) i = Some y ->
    In (col_name c1) excluded \/ cells_agree rel any nans c1 c2 x y.
