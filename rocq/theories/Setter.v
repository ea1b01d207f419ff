(** ODAUpdatingIterator.cc, ConstantSetter.h, tools/SetTool.cc: rows of a file with some
    columns set to constants ("odc set"). *)
From Coq Require Import String.
From Verif Require Import Base Fp Stream Codec Meta Header Encoder Table Writer Reader RowReader Comparator Copy Dispatcher Csv.
Open Scope Z_scope.
Local Notation length := List.length.

(** ** The list of assignments *)

(** strtoul(s, &p, 16): blanks, a sign, "0x" if a digit follows, digits; modulo 2^64. *)
Definition hex_digit (c : Z) : option Z :=
  if digitb c then Some (c - 48)
  else if (97 <=? c) && (c <=? 102) then Some (c - 87)
  else if (65 <=? c) && (c <=? 70) then Some (c - 55)
  else None.
Fixpoint hex_number (t : list Z) (n : Z) : Z :=
  match t with
  | c :: r => match hex_digit c with Some d => hex_number r (16 * n + d) | None => n end
  | [] => n
  end.
Definition hex_prefix (t : list Z) : list Z :=
  match t with
  | 48 :: x :: d :: r => if ((x =? 120) || (x =? 88)) && (match hex_digit d with Some _ => true | None => false end) then d :: r else t
  | _ => t
  end.
Definition strtoul16 (t : list Z) : Z :=
  let s := drop_while is_space t in
  match s with
  | c :: r => if c =? 45 then (- hex_number (hex_prefix r) 0) mod 2 ^ 64
              else if c =? 43 then hex_number (hex_prefix r) 0 mod 2 ^ 64
              else hex_number (hex_prefix s) 0 mod 2 ^ 64
  | [] => 0
  end.

(** The bytes of a hexadecimal literal, SetTool.cc:96-103: each pair of characters gives a
    byte (the value of strtoul cast to unsigned char). *)
Fixpoint hex_bytes (t : list Z) : list Z :=
  match t with
  | a :: b :: r => strtoul16 [a; b] mod 256 :: hex_bytes r
  | _ => []
  end.

(** The value of one assignment as the bits of a double, SetTool.cc:85-104.
    [translate] is eckit::Translator<std::string, double>. *)
Definition set_value (translate : list Z -> outcome Z) (value : list Z) : outcome Z :=
  if negb (starts_with (str "0x") value) then translate value
  else
    let t := skipn 2 value in
    do _ <- assert (Z.of_nat (length t) mod 2 =? 0);
    do _ <- assert (Z.of_nat (length t) / 2 <=? 8);
    Ok (le_val (hex_bytes t ++ repeat 0 (8 - length (hex_bytes t)))).

(** SetTool::parseUpdateList, SetTool.cc:67-110. *)
Definition parse_updates (translate : list Z -> outcome Z) (s : list Z) : outcome (list (list Z * Z)) :=
  map_out (fun a =>
    match split_text [61] a with
    | [nm; value] => do v <- set_value translate value; Ok (nm, v)
    | _ => Throw AssertFailed
    end) (split_text [44] s).

(** ** The iterator *)

(** The state of an ODAUpdatingIterator: the input iterator, columnIndices_, data_ and
    noMore_. *)
Record uiter := { u_it : riter; u_idx : list Z; u_data : list Z; u_end : bool }.

Section Setter.
Variable md5 : list Z -> list Z.
Variable st : settings.
Variable junk : nat -> nat -> list Z.
Variable sets : list (list Z * Z).     (* columns_ and values_ *)

(** updateIndices, ODAUpdatingIterator.cc:39-48; data_ is allocated with one double per
    column. *)
Definition update_indices (cs : list column) : outcome (list Z) :=
  map_out (fun p => column_index cs (fst p)) sets.

(** data_[i] = v *)
Definition put_double (data : list Z) (i v : Z) : list Z :=
  firstn (Z.to_nat (8 * i)) data ++ le_bytes 8 v ++ skipn (Z.to_nat (8 * i + 8)) data.

(** update, ODAUpdatingIterator.cc:60-63. *)
Definition update (idx : list Z) (data : list Z) : list Z :=
  fold_left (fun d p => put_double d (fst p) (snd (snd p))) (combine idx sets) data.

(** std::copy of as many doubles as there are columns, ODAUpdatingIterator.cc:35 and 80,
    then update.  The input's row buffer may be longer (wide columns); if it is shorter (no
    row was read) the copy reads beyond it. *)
Definition take_row (it : riter) (idx : list Z) : outcome (list Z) :=
  let row := concat (r_last it) in
  if (length row <? 8 * length (r_cols it))%nat then UB
  else Ok (update idx (firstn (8 * length (r_cols it)) row)).

(** The constructor, ODAUpdatingIterator.cc:21-37 (the assertion on the number of values
    holds: they are given in pairs here). *)
Definition begin_update (it : riter) : outcome uiter :=
  do idx <- update_indices (r_cols it);
  do data <- take_row it idx;
  Ok {| u_it := it; u_idx := idx; u_data := data; u_end := false |}.

(** next, ODAUpdatingIterator.cc:71-86. *)
Definition next_update (u : uiter) : outcome uiter :=
  if u_end u then Ok u
  else
    do (it1, _) <- next_row md5 st junk (u_it u);
    if r_end it1 then Ok {| u_it := it1; u_idx := u_idx u; u_data := u_data u; u_end := true |}
    else
      do idx <- (if r_new it1 then update_indices (r_cols it1) else Ok (u_idx u));
      do data <- take_row it1 idx;
      Ok {| u_it := it1; u_idx := idx; u_data := data; u_end := false |}.

Variables (N : nat) (pr : props).

(** pass1 of a writer, WriterBufferingIterator.h:201-210; isNewDataset and columns are
    those of the input iterator. *)
Fixpoint set_loop (fuel : nat) (w : writer) (u : uiter) : outcome writer :=
  match fuel with
  | O => UB
  | S f =>
      if u_end u then Ok w
      else
        do w1 <- pass1_row md5 st N pr w (r_new (u_it u)) (r_cols (u_it u)) [u_data u];
        do u1 <- next_update u;
        set_loop f w1 u1
  end.

(** SetTool::run after the assignments are parsed, SetTool.cc:46-64. *)
Definition set_file (fuel : nat) (file : list Z) : outcome (list Z) :=
  do it <- begin_rows md5 st junk file;
  do u <- begin_update it;
  do w <- pass1_init st (new_writer []) (r_cols (u_it u));
  do w1 <- set_loop fuel (write_header w) u;
  do w2 <- flush md5 st N pr w1;
  do w3 <- Writer.close md5 st N pr w2;
  Ok (w_out w3).

End Setter.

(** SetTool::run, SetTool.cc:34-65: [arg] is the text of the assignments. *)
Definition set_tool (md5 : list Z -> list Z) (st : settings) (junk : nat -> nat -> list Z) (translate : list Z -> outcome Z)
  (N : nat) (pr : props) (fuel : nat) (arg file : list Z) : outcome (list Z) :=
  do sets <- parse_updates translate arg;
  set_file md5 st junk sets N pr fuel file.
