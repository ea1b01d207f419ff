(** What an encoder of the C API is asked to encode. *)
From Verif Require Import Base Stream Meta Encoder Strided CEncoder.
Open Scope Z_scope.

(** the size of a value of a column in bytes; 0 stands for one double *)
Definition value_size (ci : colinfo) : Z := if ci_size ci =? 0 then 8 else ci_size ci.

(** the column as described to encode() *)
Definition described (ci : colinfo) : colinfo :=
  {| ci_name := ci_name ci; ci_type := ci_type ci; ci_size := value_size ci; ci_bits := ci_bits ci |}.

(** the bytes of the columns before column [i], and of all columns, in a row *)
Definition sum (l : list Z) : Z := fold_right Z.add 0 l.
Definition bytes_before (infos : list colinfo) (i : nat) : Z := sum (map value_size (firstn i infos)).
Definition bytes_per_row (infos : list colinfo) : Z := sum (map value_size infos).

(** Address of byte [b] of the value in row [r] and column [i] of an array at [base] of
    [height] rows of [width] bytes.  Row major: rows one after the other.  Column major with
    array columns of [major] bytes: the array columns one after the other, a wider value
    spread over neighbouring array columns. *)
Definition array_byte (major base width height : Z) (infos : list colinfo) (i r : nat) (b : Z) : Z :=
  if major =? 0 then base + Z.of_nat r * width + bytes_before infos i + b
  else base + bytes_before infos i * height + (b / major * height + Z.of_nat r) * major + b mod major.

(** the address of byte [b] of the value in row [r] of an array for one column *)
Definition column_byte (a stride : Z) (r : nat) (b : Z) : Z := a + Z.of_nat r * stride + b.

(** where the encoder is told to find the value in row [r] and column [i] *)
Definition value_byte (e : cencoder) (i r : nat) (b : Z) : Z :=
  match ce_array e with
  | Some base => array_byte (ce_major e) base (ce_width e) (ce_height e) (ce_infos e) i r b
  | None =>
      match nth_error (ce_cols e) i, nth_error (ce_infos e) i with
      | Some c, Some ci =>
          match ec_data c with
          | At a => column_byte a (if ec_stride c =? 0 then value_size ci else ec_stride c) r b
          | _ => 0
          end
      | _, _ => 0
      end
  end.

(** the values of column [i] in memory [m] *)
Definition values (m : mem) (e : cencoder) (i : nat) (ci : colinfo) : coldata :=
  {| cd_size := value_size ci;
     cd_cells := map (fun r => map (fun b => m (value_byte e i r (Z.of_nat b))) (seq 0 (Z.to_nat (value_size ci)))) (seq 0 (Z.to_nat (ce_nrows e))) |}.
Definition table_values (m : mem) (e : cencoder) : list coldata :=
  map (fun ic => values m e (fst ic) (snd ic)) (combine (seq 0 (length (ce_infos e))) (ce_infos e)).

(** The layouts the encoder can read: rows are counted in an int; array columns divide the
    values. *)
Definition readable (e : cencoder) : Prop :=
  ce_nrows e < 2 ^ 31 /\
  (ce_array e <> None -> ce_major e = 0 \/ 0 < ce_major e < 2 ^ 31 /\ Forall (fun ci => value_size ci mod ce_major e = 0) (ce_infos e)).

(** nothing has been assigned to the column *)
Definition unset (c : ecol) : Prop := ec_data c = Null /\ ec_stride c = 0.
(** the column has an array of its own *)
Definition own_array (c : ecol) : Prop := exists a, ec_data c = At a.

(** What has to be configured for encoding. *)
Definition configured (e : cencoder) : Prop :=
  0 < ce_nrows e /\ 0 < ce_max e /\ ce_infos e <> [] /\
  match ce_array e with
  | Some _ => ce_nrows e <= ce_height e /\ bytes_per_row (ce_infos e) <= ce_width e /\ Forall unset (ce_cols e) /\
              (ce_major e = 0 -> ce_width e mod 8 = 0)
  | None => Forall own_array (ce_cols e)
  end.
