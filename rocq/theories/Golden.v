(** The model run on real files: the frames shipped with the documentation are read,
    decoded and re-encoded to the same bytes.  (Tests of the model, not theorems about it.) *)
From Coq Require Import String.
From Verif Require Import Base Fp Stream Codec Meta Header Encoder Table Spec ColumnProofs Md5 GoldenData.
Open Scope Z_scope.

Definition dflt : settings := {| iad := true; long_strings := false |}.

(** decode all columns of the frame at the start of a file *)
Definition decode_first (file : list Z) : outcome (option (list column * list (list (list Z)))) :=
  do t <- read_table md5 dflt (Z.of_nat (List.length file)) file 0;
  match t with
  | None => Ok None
  | Some t =>
      let facs := map (fun c => {| f_size := 8 * data_size_doubles (col_coder c);
                                   f_elems := repeat (repeat 0 (Z.to_nat (8 * data_size_doubles (col_coder c)))) (Z.to_nat (t_rows t)) |}) (t_cols t) in
      do outs <- decode_target file t (map col_name (t_cols t)) facs;
      Ok (Some (t_cols t, map (fun f => match f with Some f => f_elems f | None => [] end) outs))
  end.

(** encode cells again, without any property *)
Definition encode_again (cs : list column) (cells : list (list (list Z))) : outcome (list Z) :=
  let cis := map (fun c => {| ci_name := col_name c; ci_type := col_type c; ci_size := 8 * data_size_doubles (col_coder c);
                              ci_bits := combine (col_bfnames c) (col_bfsizes c) |}) cs in
  let n := List.length (nth 0 cells []) in
  do ks <- map_out (fun p => prepare dflt LE (fst p) (snd p)) (combine cis cells);
  do body <- encode_rows ks None (rows_of n cells);
  do h <- serialize_header md5 LE (Z.of_nat (List.length body)) (Z.of_nat n) []
            (map (fun p => with_coder (fst p) (snd p)) (combine cs ks));
  Ok (h ++ body).

(** Reading and re-encoding gives back every byte of the file. *)
Definition reproduces (file : list Z) : Prop :=
  match decode_first file with
  | Ok (Some (cs, cells)) => encode_again cs cells = Ok file
  | _ => False
  end.

Theorem golden_1 : reproduces data1.
Proof. vm_compute. reflexivity. Qed.
Theorem golden_2 : reproduces data2.
Proof. vm_compute. reflexivity. Qed.
Theorem golden_3 : reproduces data3.
Proof. vm_compute. reflexivity. Qed.

(** What docs/content/tools.rst (lines 200-211) shows for data-1.odb. *)
Theorem golden_header :
  match read_table md5 dflt 1241 data1 0 with
  | Ok (Some t) =>
      (t_start t, t_next t, t_rows t, t_order t) = (0, 1241, 10, LE) /\
      map (fun c => (col_name c, col_type c, kname (c_kind (col_coder c)), 8 * data_size_doubles (col_coder c), c_hasMissing (col_coder c))) (t_cols t) =
      [ (str "expver"%string, ty_INTEGER, str "constant"%string, 8, 0);
        (str "date@hdr"%string, ty_INTEGER, str "constant"%string, 8, 0);
        (str "statid@hdr"%string, ty_STRING, str "int8_string"%string, 8, 0);
        (str "wigos@hdr"%string, ty_STRING, str "int8_string"%string, 16, 0);
        (str "obsvalue@body"%string, ty_REAL, str "short_real2"%string, 8, 0);
        (str "integer_missing"%string, ty_INTEGER, str "int16"%string, 8, 0);
        (str "double_missing"%string, ty_REAL, str "short_real2"%string, 8, 0);
        (str "bitfield_column"%string, ty_BITFIELD, str "int16"%string, 8, 0) ] /\
      map (fun c => (c_min (col_coder c), c_max (col_coder c))) (firstn 2 (t_cols t)) = [(z2d 1, z2d 1); (z2d 20210420, z2d 20210420)] /\
      map (fun c => combine (col_bfnames c) (col_bfsizes c)) (skipn 7 (t_cols t)) =
        [[(str "flag_a"%string, 1); (str "flag_b"%string, 2); (str "flag_c"%string, 5)]]
  | _ => False
  end.
Proof. vm_compute. repeat split. Qed.
