(** Specification vocabulary for C54: what "odc mdset" is asked to do, and what becomes of a table. *)
From Coq Require Import String.
From Verif Require Import Spec CsvSpec Base Fp Stream Codec Meta Header Table Reader ReadSpec ScanSpec.
Open Scope Z_scope.
Local Notation length := List.length.

(** One change: the column it calls, its new type and its new value (8 bytes, as a number). *)
Record change := { ch_name : list Z; ch_type : option Z; ch_value : option Z }.

(** A column is called by its name, or by what stands before an '@' (64) in it. *)
Fixpoint calls (nm full : list Z) : bool :=
  match nm, full with
  | [], [] => true
  | [], b :: _ => b =? 64
  | a :: nm', b :: full' => (a =? b) && calls nm' full'
  | _ :: _, [] => false
  end.

(** What the changes say about a column: the last one that says something decides. *)
Definition said {A} (f : change -> option A) (chs : list change) (full : list Z) : option A :=
  fold_left (fun r ch => if calls (ch_name ch) full then match f ch with Some x => Some x | None => r end else r) chs None.

Definition or_else {A} (o : option A) (d : A) : A := match o with Some x => x | None => d end.

(** The codecs of constant columns. *)
Definition constant_kind (k : ckind) : Prop :=
  In k [KConstant; KConstantString; KLongConstantString; KConstantOrMissing; KRealConstantOrMissing].

(** A change fits a table: it calls exactly one column, a constant one if it gives a value. *)
Definition fits (cs : list column) (ch : change) : Prop :=
  exists i c, nth_error cs i = Some c /\
    (forall j c', nth_error cs j = Some c' -> calls (ch_name ch) (col_name c') = true <-> j = i) /\
    (ch_value ch <> None -> constant_kind (c_kind (col_coder c))).

(** A column after the changes. *)
Record column_after (chs : list change) (c c' : column) : Prop := {
  ca_name : col_name c' = col_name c;
  ca_type : col_type c' = or_else (said ch_type chs (col_name c)) (col_type c);
  ca_bits : col_type c' = ty_BITFIELD -> col_bfnames c' = col_bfnames c /\ col_bfsizes c' = col_bfsizes c;
  ca_nobits : col_type c' <> ty_BITFIELD -> col_bfnames c' = [] /\ col_bfsizes c' = [];
  ca_kind : c_kind (col_coder c') = c_kind (col_coder c);
  ca_min : c_min (col_coder c') = or_else (said ch_value chs (col_name c)) (c_min (col_coder c));
  ca_max : c_max (col_coder c') = or_else (said ch_value chs (col_name c)) (c_max (col_coder c));
  ca_hasMissing : c_hasMissing (col_coder c') = c_hasMissing (col_coder c);
  ca_missing : c_missing (col_coder c') = c_missing (col_coder c);
  ca_strings : c_strings (col_coder c') = c_strings (col_coder c);
  ca_width : c_dsd (col_coder c') = c_dsd (col_coder c);
  ca_order : c_ord (col_coder c') = c_ord (col_coder c);
  ca_int64 : said ch_type chs (col_name c) = None -> c_int64 (col_coder c') = c_int64 (col_coder c)
}.

(** A frame before and after: the bytes that follow the header are the same. *)
Record frame_after (chs : list change) (f : list Z) (t : table) (f' : list Z) (t' : table) : Prop := {
  fa_order : t_order t' = t_order t;
  fa_props : t_props t' = t_props t;
  fa_rows : t_rows t' = t_rows t;
  fa_size : t_size t' = t_size t;
  fa_data : skipn (Z.to_nat (t_data t')) f' = skipn (Z.to_nat (t_data t)) f;
  fa_cols : Forall2 (column_after chs) (t_cols t) (t_cols t')
}.

(** ** The argument of the command *)

(** The words for types, in any mixture of small and capital letters. *)
Definition type_word (w : list Z) (ty : Z) : Prop :=
  exists s, In (s, ty) [("IGNORE"%string, ty_IGNORE); ("INTEGER"%string, ty_INTEGER); ("REAL"%string, ty_REAL);
                        ("DOUBLE"%string, ty_DOUBLE); ("STRING"%string, ty_STRING); ("BITFIELD"%string, ty_BITFIELD)] /\
    in_capitals w (str s).

(** A quoted text of at most 8 characters is aligned to the right; anything else is a number. *)
Definition quoted (w body : list Z) : Prop := exists q, (q = 34 \/ q = 39) /\ w = q :: body ++ [q].
Inductive value_word (to_double : list Z -> outcome Z) (w : list Z) (v : Z) : Prop :=
| vw_text body : quoted w body -> (length body <= 8)%nat -> v = le_val (repeat 32 (8 - length body) ++ body) -> value_word to_double w v
| vw_number : (forall body, ~ quoted w body) -> to_double w = Ok v -> w <> str "NONE" -> value_word to_double w v.

(** "name", "name:TYPE", "name=value" or "name:TYPE=value". *)
Definition no_mark (w : list Z) : Prop := w <> [] /\ forall c, In c w -> c <> 44 /\ c <> 58 /\ c <> 61.
Inductive assignment (to_double : list Z -> outcome Z) : list Z -> change -> Prop :=
| as_assignment nm ty v tt vt :
    no_mark nm ->
    match ty with None => tt = [] | Some x => exists w, tt = 58 :: w /\ no_mark w /\ type_word w x end ->
    match v with None => vt = [] | Some x => exists w, vt = 61 :: w /\ (forall c, In c w -> c <> 44 /\ c <> 61) /\ w <> [] /\ value_word to_double w x end ->
    assignment to_double (nm ++ tt ++ vt) {| ch_name := nm; ch_type := ty; ch_value := v |}.

Inductive asks (to_double : list Z -> outcome Z) : list Z -> list change -> Prop :=
| ak_one a ch : assignment to_double a ch -> asks to_double a [ch]
| ak_more a ch arg chs : assignment to_double a ch -> asks to_double arg chs -> asks to_double (a ++ 44 :: arg) (ch :: chs).

(** The tables for which the outcome is described.  With integers read as integers, a column
    stays an integer column or stays another one. *)
Definition integral (ty : Z) : Prop := ty = ty_INTEGER \/ ty = ty_BITFIELD.
Definition readable (st : settings) (chs : list change) (cs : list column) : Prop :=
  iad st = true \/
  forall c, In c cs -> integral (or_else (said ch_type chs (col_name c)) (col_type c)) <-> integral (col_type c).

(** The width of a column of texts is that of the longest in its table, in units of 8 bytes
    (no encoder writes another). *)
Definition tidy (k : codec) : Prop :=
  In (c_kind k) [KInt8String; KInt16String] ->
  c_dsd k = fold_left (fun d t => Z.max d ((Z.of_nat (length t) + 7) / 8)) (c_strings k) 1.

Record suits (st : settings) (chs : list change) (t : table) : Prop := {
  su_fits : Forall (fits (t_cols t)) chs;
  su_types : readable st chs (t_cols t);
  su_tidy : Forall (fun c => tidy (col_coder c)) (t_cols t);
  su_rows : t_rows t < 2 ^ 63
}.

(** Why a change does not fit a table. *)
Definition misfit (cs : list column) (ch : change) (e : exn) : Prop :=
  e = ColumnNotFound /\ (forall j c, nth_error cs j = Some c -> calls (ch_name ch) (col_name c) = false) \/
  e = AmbiguousColumn /\ (exists i j c c', i <> j /\ nth_error cs i = Some c /\ nth_error cs j = Some c' /\
     calls (ch_name ch) (col_name c) = true /\ calls (ch_name ch) (col_name c') = true) \/
  e = UserError /\ ch_value ch <> None /\ exists i c, nth_error cs i = Some c /\
     (forall j c', nth_error cs j = Some c' -> calls (ch_name ch) (col_name c') = true <-> j = i) /\
     ~ constant_kind (c_kind (col_coder c)).

(** The frames written for a list of frames; a header of 2 GiB or more is not described. *)
Definition rewritten (md5 : list Z -> list Z) (st : settings) (chs : list change) (l l' : list (list Z * table)) : Prop :=
  Forall2 (fun p p' => Z.of_nat (length (fst p')) - t_size (snd p) < 2 ^ 31 ->
    frame md5 st (fst p') (snd p') /\ frame_after chs (fst p) (snd p) (fst p') (snd p')) l l'.

(** ** The values read afterwards *)

(** The values that may be given to a column: an integer for an integer column; a number
    other than -0.0 for a real one; anything for texts. *)
Definition value_for (ty v : Z) : Prop :=
  (int_type ty -> exists w, mid w /\ v = z2d w) /\ (real_type ty -> num v /\ v <> negzero).

(** A cell of a constant column ([kind] is its codec) given the value [v], as read afterwards:
    missing cells stay missing, and a long constant text stays what it was. *)
Inductive cell_after (st st' : settings) (ty : Z) (kind : ckind) (v : Z) : list Z -> list Z -> Prop :=
| af_int n w : int_type ty -> mid n -> mid w -> v = z2d w ->
    cell_after st st' ty kind v (int_cell (negb (iad st)) n) (int_cell (negb (iad st')) (if n =? MDI then MDI else w))
| af_real b : real_type ty -> is64 b ->
    cell_after st st' ty kind v (le_bytes 8 b) (le_bytes 8 (if deq b realMDI then realMDI else v))
| af_text cell : ty = ty_STRING -> kind = KConstantString -> cell_after st st' ty kind v cell (le_bytes 8 v)
| af_long cell out : ty = ty_STRING -> kind = KLongConstantString -> until_nul out = until_nul cell ->
    cell_after st st' ty kind v cell out.

(** A cell of any column. *)
Definition cell_now (st st' : settings) (chs : list change) (name : list Z) (ty : Z) (kind : ckind) (cell out : list Z) : Prop :=
  match said ch_value chs name with
  | None => same_value st st' ty cell out
  | Some v => cell_after st st' ty kind v cell out
  end.

(** As [received] of Spec.v, for another relation between a cell and what is read. *)
Definition received_as (R : list Z -> list Z -> Prop) (w : Z) (cells : list (list Z)) (f out : facade) : Prop :=
  f_size out = f_size f /\ length (f_elems out) = length (f_elems f) /\
  (forall r, (r < length cells)%nat ->
     Z.of_nat (length (nth r (f_elems out) [])) = f_size f /\
     R (nth r cells []) (firstn (Z.to_nat w) (nth r (f_elems out) []))) /\
  (forall r, (length cells <= r)%nat -> nth r (f_elems out) [] = nth r (f_elems f) []).
