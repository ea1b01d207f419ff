(** A whole trip of concrete data through the API, with the real digest: used for the
    counterexamples and for witnesses. *)
From Coq Require Import String.
From Verif Require Import Base Fp Stream Codec Meta Header Encoder Table Spec Md5 Api.
Open Scope Z_scope.

(** encode with settings [st] in byte order [o], read with settings [st'], decode all columns *)
Definition through (st st' : settings) (o : order) (cols : list colinfo) (data : list coldata)
  : outcome (list (list (list Z))) :=
  do b <- encode_frame md5 (str "odc version 1.6.2"%string) st o cols data [];
  do t <- read_table md5 st' (Z.of_nat (List.length b)) b 0;
  match t with
  | None => Throw SeriousBug
  | Some t =>
      let facs := map (fun c => {| f_size := 8 * data_size_doubles (col_coder c);
                                   f_elems := repeat (repeat 170 (Z.to_nat (8 * data_size_doubles (col_coder c)))) (Z.to_nat (t_rows t)) |}) (t_cols t) in
      do outs <- decode_target b t (map col_name (t_cols t)) facs;
      Ok (map (fun f => match f with Some f => f_elems f | None => [] end) outs)
  end.

(** one column named "x" *)
Definition col_x (ty size : Z) : colinfo := {| ci_name := str "x"%string; ci_type := ty; ci_size := size; ci_bits := [] |}.
Definition odc_tag : list Z := str "odc version 1.6.2"%string.
Definition through1 (st st' : settings) (ty size : Z) (cells : list (list Z)) : outcome (list (list Z)) :=
  trip md5 odc_tag st st' LE (col_x ty size) cells.

(** the digest of a frame header is 32 hexadecimal digits *)
Definition digest (md5 : list Z -> list Z) : Prop := forall l, List.length (md5 l) = 32%nat.

Definition doubles : settings := {| iad := true; long_strings := false |}.
Definition int64s : settings := {| iad := false; long_strings := false |}.

(** some doubles *)
Definition d_one : Z := 4607182418800017408.       (* 0x3ff0000000000000 *)
Definition d_nan : Z := 9221120237041090560.       (* 0x7ff8000000000000 *)
Definition d_inf : Z := 9218868437227405312.       (* 0x7ff0000000000000 *)

Lemma fits_x ty size cells :
  (header_room [col_x ty size] [{| cd_size := size; cd_cells := cells |}] [(str "encoder"%string, odc_tag)] <? 2 ^ 31)
    && (len cells * (2 + size) <? 2 ^ 63) = true -> fits odc_tag (col_x ty size) cells.
Proof.
  intros H. apply andb_true_iff in H as [H1 H2]. split; [|split].
  - split; [unfold len31; vm_compute; reflexivity|]. intros _. split; [unfold len31; vm_compute; reflexivity|constructor].
  - cbn [ci_size col_x]. now apply Z.ltb_lt.
  - now apply Z.ltb_lt.
Qed.
