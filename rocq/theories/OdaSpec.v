(** Specification vocabulary for C57: a query's results in an ODB file. *)
From Verif Require Import Base Fp Stream Codec Meta Header Encoder Writer WriterSpec RowList Spec P_Tables OdaOut.
Open Scope Z_scope.

(** The column a result is kept in: its title and type; a number takes one double, a text the
    width announced; a bitfield keeps its members. *)
Definition announced (ci : colinfo) : colinfo :=
  {| ci_name := ci_name ci; ci_type := ci_type ci;
     ci_size := (if ci_type ci =? ty_STRING then ci_size ci else 8);
     ci_bits := (if ci_type ci =? ty_BITFIELD then ci_bits ci else []) |}.

(** The columns in effect: a column of strings is as wide as the widest announced so far. *)
Definition widest (a b : colinfo) : colinfo :=
  {| ci_name := ci_name a; ci_type := ci_type a; ci_size := Z.max (ci_size a) (ci_size b); ci_bits := ci_bits a |}.
Fixpoint widen (cols news : list colinfo) : list colinfo :=
  match cols, news with
  | c :: cs, n :: ns => (if ci_type c =? ty_STRING then widest c n else c) :: widen cs ns
  | _, _ => cols
  end.

(** The rows of results, each with the columns in effect when it was made. *)
Fixpoint answers (cols : list colinfo) (es : list oevent) : list (list colinfo * list ovalue) :=
  match es with
  | [] => []
  | OTypes news :: es' => answers (widen cols news) es'
  | OResult vals :: es' => (cols, vals) :: answers cols es'
  end.

(** The columns in effect at the end. *)
Fixpoint in_effect (cols : list colinfo) (es : list oevent) : list colinfo :=
  match es with
  | [] => cols
  | OTypes news :: es' => in_effect (widen cols news) es'
  | OResult _ :: es' => in_effect cols es'
  end.

(** A result of the type of its column; a text is no longer than the column is wide, and its
    array holds that many bytes or ends with a nul. *)
Definition suits (ci : colinfo) (v : ovalue) : Prop :=
  match v with
  | ONumber bits _ => ci_type ci <> ty_STRING /\ is64 bits
  | OText val n missing => ci_type ci = ty_STRING /\ 0 <= n <= ci_size ci /\
      (missing = false -> n <= len val \/ In 0 val)
  end.

(** Announced later: the same titles and types, in the same order; strings of whole doubles. *)
Definition same_titles (cols news : list colinfo) : Prop :=
  Forall2 (fun c n => ci_name n = ci_name c /\ ci_type n = ci_type c /\
    (ci_type n = ty_STRING -> exists d, 1 <= d /\ ci_size n = 8 * d /\ 8 * d < 2 ^ 31)) cols news.

(** What a query does: results suit the columns in effect. *)
Fixpoint proper (cols : list colinfo) (es : list oevent) : Prop :=
  match es with
  | [] => True
  | OTypes news :: es' => same_titles cols news /\ proper (widen cols news) es'
  | OResult vals :: es' => Forall2 suits cols vals /\ proper cols es'
  end.

(** The title of a column of strings designates no other column. *)
Definition text_titles (cols : list colinfo) : Prop :=
  forall i j ci cj, nth_error cols i = Some ci -> nth_error cols j = Some cj -> ci_type ci = ty_STRING ->
    called (ci_name cj) (ci_name ci) -> i = j.

(** The bytes of a result: a number in its eight bytes (a missing one as the format's missing
    value), a text up to its end, padded with zeros (a missing one empty). *)
Definition missing_bits (st : settings) (ty : Z) : Z :=
  if (ty =? ty_INTEGER) || (ty =? ty_BITFIELD) then (if iad st then z2d MDI else MDI) else realMDI.
Definition cell_of (st : settings) (ci : colinfo) (v : ovalue) : list Z :=
  match v with
  | ONumber bits missing => le_bytes 8 (if missing then missing_bits st (ci_type ci) else bits)
  | OText val n missing =>
      let t := if missing then [] else until_nul (firstn (Z.to_nat n) val) in t ++ repeat 0 (Z.to_nat (ci_size ci - len t))
  end.
Definition row_of (st : settings) (r : list colinfo * list ovalue) : list (list Z) :=
  map (fun cv => cell_of st (fst cv) (snd cv)) (combine (fst r) (snd r)).

(** Any choice of at most [N] rows of the same columns can be stored in a frame. *)
Definition rows_storable (st : settings) (N : nat) (pr : props) (rows : list (list colinfo * list (list Z))) : Prop :=
  forall cs part, part <> [] -> (length part <= N)%nat -> (forall row, In row part -> In (cs, row) rows) -> writable st cs pr part.

(** The value [out], of type [ty], is what was handed over. *)
Definition shows_value (st st' : settings) (ty : Z) (v : ovalue) (out : list Z) : Prop :=
  match v with
  | ONumber bits missing => same_value st st' ty (le_bytes 8 (if missing then missing_bits st ty else bits)) out
  | OText val n missing => until_nul out = (if missing then [] else until_nul (firstn (Z.to_nat n) val))
  end.

(** A row of the file shows a row of results: titles, types, members of bitfields, values. *)
Record shows (st st' : settings) (r : list colinfo * list ovalue) (out : arow) : Prop := {
  sh_columns : Forall2 described (fst r) (fst out);
  sh_count : length (snd r) = length (fst r) /\ length (snd out) = length (fst r);
  sh_values : forall i ci v y, nth_error (fst r) i = Some ci -> nth_error (snd r) i = Some v -> nth_error (snd out) i = Some y ->
    shows_value st st' (ci_type ci) v y
}.
