(** Specification vocabulary: what the data of a column is and what it means to get it
    back.  Nothing here refers to codecs, optimisation or row compression.

    A cell is the bytes of one element of a strided column (8 bytes for numbers). *)
From Coq Require Import String.
From Verif Require Import Base Fp Stream Codec Meta Encoder Table.
Open Scope Z_scope.
Local Notation length := List.length.

(** ** Integers *)

(** An integer [n] as the user supplies it: an int64_t, or a double holding an
    integer (setting integersAsDoubles). *)
Definition int_cell (i64 : bool) (n : Z) : list Z := le_bytes 8 (if i64 then n else z2d n).

(** The value that denotes "missing" in INTEGER and BITFIELD columns. *)
Definition MDI : Z := 2147483647.
Definition mid (n : Z) : Prop := - 2 ^ 52 <= n <= 2 ^ 52.
Definition int32 (n : Z) : Prop := - 2 ^ 31 <= n < 2 ^ 31.
Definition int_type (ty : Z) : Prop := ty = ty_INTEGER \/ ty = ty_BITFIELD.

(** Integer columns the format can hold: 32-bit values, or values (up to 2^52) that
    span less than 65535. *)
Definition int_representable (ns : list Z) : Prop :=
  Forall mid ns /\
  (Forall int32 ns \/
   forall a b, In a ns -> In b ns -> a <> MDI -> b <> MDI -> a - b < 65535).

(** ** Reals: a double is its 64-bit pattern *)

Definition negzero : Z := 2 ^ 63.
Definition real_type (ty : Z) : Prop := ty = ty_REAL \/ ty = ty_DOUBLE.

(** a double that is not a NaN *)
Definition num (b : Z) : Prop := is64 b /\ is_nan f64 b = false.

(** The column holds missing values and otherwise only one value, an infinity: the
    encoder then converts inf - inf to an integer, which is undefined. *)
Definition inf_with_missing (bs : list Z) : Prop :=
  (exists v, In v bs /\ deq v realMDI = true) /\ (exists v, In v bs /\ is_inf f64 v = true) /\
  (forall v w, In v bs -> In w bs -> deq v realMDI = false -> deq w realMDI = false -> deq v w = true).

(** a double rounded to single precision (and widened again) *)
Definition as_single (v : Z) : Z := f2d (d2f v).

(** all non-missing values are the same number *)
Definition real_same (bs : list Z) : Prop :=
  forall a b, In a bs -> In b bs -> deq a realMDI = false -> deq b realMDI = false -> deq a b = true.

(** The single-precision number the format reserves for "missing": FLT_MIN when the
    column contains FLT_MAX, otherwise -FLT_MAX. *)
Definition real_marker (bs : list Z) : Z :=
  if existsb (fun v => deq v (f2d flt_max)) bs then flt_min else neg_flt_max.

(** The REAL columns the encoder accepts. *)
Definition real_encodable (bs : list Z) : Prop :=
  ~ inf_with_missing bs /\
  (real_same bs \/ forall v, In v bs -> deq v realMDI = false -> feq f32 (d2f v) (real_marker bs) = false).

(** [w] is what a REAL value [v] may be decoded as. *)
Definition real_result (v w : Z) : Prop :=
  if deq v realMDI then w = realMDI else deq w v = true \/ w = as_single v.

(** ** Strings: the text of a cell ends at the first NUL *)

Definition texts (cells : list (list Z)) : list (list Z) := map until_nul cells.
Definition distinct (cells : list (list Z)) : Z :=
  Z.of_nat (length (nodup (list_eq_dec Z.eq_dec) (texts cells))).

(** ** Columns *)

(** Data the encoder must be able to store and give back. *)
Inductive storable (st : settings) (ci : colinfo) : list (list Z) -> Prop :=
| st_int ns : int_type (ci_type ci) -> ci_size ci = 8 -> int_representable ns ->
    storable st ci (map (int_cell (negb (iad st))) ns)
| st_real bs : ci_type ci = ty_REAL -> ci_size ci = 8 -> Forall num bs -> real_encodable bs ->
    storable st ci (map (le_bytes 8) bs)
| st_double bs : ci_type ci = ty_DOUBLE -> ci_size ci = 8 -> Forall num bs ->
    ~ In negzero bs -> ~ inf_with_missing bs ->
    storable st ci (map (le_bytes 8) bs)
| st_string dsd cells : ci_type ci = ty_STRING -> ci_size ci = 8 * dsd -> 1 <= dsd -> 8 * dsd < 2 ^ 31 ->
    Forall (fun cell => Z.of_nat (length cell) = 8 * dsd) cells -> Forall bytes_ok cells ->
    distinct cells < 65536 ->
    ~ (long_strings st = true /\ dsd > 1 /\ In [] (texts cells) /\ distinct cells = 1) ->
    storable st ci cells.

(** [out] is a faithful copy of [cell], of type [ty], for a reader with settings [st'].
    A string may come back in a narrower element (as wide as the longest text). *)
Definition same_value (st st' : settings) (ty : Z) (cell out : list Z) : Prop :=
  (int_type ty /\ exists n, mid n /\ cell = int_cell (negb (iad st)) n /\ out = int_cell (negb (iad st')) n) \/
  (ty = ty_REAL /\ exists v w, is64 v /\ is64 w /\ cell = le_bytes 8 v /\ out = le_bytes 8 w /\ real_result v w) \/
  (ty = ty_DOUBLE /\ out = cell) \/
  (ty = ty_STRING /\ until_nul out = until_nul cell).

(** ** Tables *)

(** a count or length that fits the signed 32-bit fields of the format *)
Definition len31 {A} (l : list A) : Prop := Z.of_nat (length l) < 2 ^ 31.

(** a std::map<string,string> with lengths that fit *)
Definition props_ok (m : props) : Prop :=
  msorted m /\ len31 m /\ Forall (fun kv => len31 (fst kv) /\ len31 (snd kv)) m.

(** names, types and bitfield definitions that fit the format *)
Definition describable (ci : colinfo) : Prop :=
  len31 (ci_name ci) /\
  (ci_type ci = ty_BITFIELD ->
     len31 (ci_bits ci) /\ Forall (fun b => len31 (fst b) /\ - 2 ^ 31 <= snd b < 2 ^ 31) (ci_bits ci)).

(** An upper bound for the size of the header of a frame: names, properties, bitfield
    members and the distinct texts of STRING columns are stored in it. *)
Definition len {A} (l : list A) : Z := Z.of_nat (length l).
Definition total {A} (f : A -> Z) (l : list A) : Z := fold_right (fun x a => f x + a) 0 l.
Definition column_room (ci : colinfo) (cells : list (list Z)) : Z :=
  100 + len (ci_name ci) + total (fun b => 8 + len (fst b)) (ci_bits ci)
  + (if ci_type ci =? ty_STRING
     then total (fun t => 12 + len t) (nodup (list_eq_dec Z.eq_dec) (texts cells)) else 0).
Definition header_room (cols : list colinfo) (data : list coldata) (m : props) : Z :=
  200 + total (fun kv => 8 + len (fst kv) + len (snd kv)) m
  + total (fun cd => column_room (fst cd) (cd_cells (snd cd))) (combine cols data).

(** The tables of [n] rows the encoder must accept and give back; [tag] is the value of
    the property "encoder" that the library adds. *)
Record valid_table (st : settings) (tag : list Z) (n : nat) (cols : list colinfo) (data : list coldata)
  (pr : props) : Prop := {
  vt_data : Forall2 (fun ci d => cd_size d = ci_size ci /\ length (cd_cells d) = n /\
                                 storable st ci (cd_cells d)) cols data;
  vt_some : cols <> [];
  vt_many : Z.of_nat (length cols) < 65536;
  vt_names : NoDup (map ci_name cols);
  vt_cols : Forall describable cols;
  vt_props : props_ok (mset pr (str "encoder"%string) tag);
  vt_header : header_room cols data (mset pr (str "encoder"%string) tag) < 2 ^ 31;
  vt_size : Z.of_nat n * (2 + fold_right Z.add 0 (map ci_size cols)) < 2 ^ 63
}.

(** One column [ci] of [cells], alone in a table, is small enough for the format's
    length fields. *)
Definition fits (tag : list Z) (ci : colinfo) (cells : list (list Z)) : Prop :=
  describable ci /\
  header_room [ci] [{| cd_size := ci_size ci; cd_cells := cells |}] [(str "encoder"%string, tag)] < 2 ^ 31 /\
  len cells * (2 + ci_size ci) < 2 ^ 63.

(** position of the first element satisfying [f] *)
Fixpoint first_pos {A} (f : A -> bool) (l : list A) : option nat :=
  match l with
  | [] => None
  | x :: l' => if f x then Some O else option_map S (first_pos f l')
  end.

(** What a request for [nm] selects among columns called [names]: the column with that
    full name, else the first one with that name before '@'. *)
Definition select (names : list (list Z)) (nm : list Z) : option nat :=
  match first_pos (bytes_eqb nm) names with
  | Some i => Some i
  | None => first_pos (fun full => bytes_eqb nm (before_at full)) names
  end.

(** The facade [out] is [f] with element [r] overwritten by the value [nth r vals]
    for every row of [vals]; other elements are untouched. *)
Definition holds (vals : list (list Z)) (f out : facade) : Prop :=
  f_size out = f_size f /\ List.length (f_elems out) = List.length (f_elems f) /\
  (forall r, (r < List.length vals)%nat ->
     firstn (List.length (nth r vals [])) (nth r (f_elems out) []) = nth r vals [] /\
     Z.of_nat (List.length (nth r (f_elems out) [])) = f_size f) /\
  (forall r, (List.length vals <= r)%nat -> nth r (f_elems out) [] = nth r (f_elems f) []).

(** An array that can receive [n] values of [w] bytes. *)
Definition can_hold (n : nat) (w : Z) (f : facade) : Prop :=
  w <= f_size f /\ (n <= length (f_elems f))%nat /\
  Forall (fun e => Z.of_nat (length e) = f_size f) (f_elems f).

(** The array [out] is [f] with its first elements overwritten by faithful copies of
    [cells], each [w] bytes wide. *)
Definition received (st st' : settings) (ty w : Z) (cells : list (list Z)) (f out : facade) : Prop :=
  f_size out = f_size f /\ length (f_elems out) = length (f_elems f) /\
  (forall r, (r < length cells)%nat ->
     Z.of_nat (length (nth r (f_elems out) [])) = f_size f /\
     same_value st st' ty (nth r cells []) (firstn (Z.to_nat w) (nth r (f_elems out) []))) /\
  (forall r, (length cells <= r)%nat -> nth r (f_elems out) [] = nth r (f_elems f) []).
