(** Specification vocabulary for reading files made of frames. *)
From Verif Require Import Base Fp Stream Codec Meta Header Table.

(** The bytes [f] are one complete frame, and [t] is the table found when [f] alone is
    the file. *)
Definition frame (md5 : list Z -> list Z) (st : settings) (f : list Z) (t : table) : Prop :=
  read_table md5 st 0 f 0 = Ok (Some t) /\ t_next t = Z.of_nat (length f).

(** The table [t] found [d] bytes further in a file; everything else is unchanged. *)
Definition moved (d : Z) (t : table) : table :=
  {| t_start := t_start t + d; t_data := t_data t + d; t_next := t_next t + d; t_size := t_size t;
     t_order := t_order t; t_props := t_props t; t_cols := t_cols t; t_rows := t_rows t |}.

(** [tables] are the tables of the file that consists of the frames [fs] one after the
    other: table i is that of frame i, at the offset where frame i starts. *)
Definition tables_of (md5 : list Z -> list Z) (st : settings) (fs : list (list Z)) (tables : list table) : Prop :=
  length tables = length fs /\
  forall i f, nth_error fs i = Some f ->
    exists t, frame md5 st f t /\
      nth_error tables i = Some (moved (Z.of_nat (length (concat (firstn i fs)))) t).

(** Every element of [fs] is a complete frame. *)
Definition frames (md5 : list Z -> list Z) (st : settings) (fs : list (list Z)) : Prop :=
  Forall (fun f => exists t, frame md5 st f t) fs.

(** A data handle that knows the size of its data, or one that does not (0). *)
Definition estimate (est : Z) (file : list Z) : Prop := est = 0 \/ est = Z.of_nat (length file).

(** The number of rows of a frame made of several tables. *)
Definition rows_in (fr : list table) : Z := fold_right (fun t n => t_rows t + n) 0 fr.

(** Two tables may be presented as one frame. *)
Definition joinable (same : list column -> list column -> bool) (a t : table) : Prop :=
  same (t_cols a) (t_cols t) = true.

(** [frs] is how a reader may group the tables [tables] of a file into frames, leaving
    [rest] unread.  [same] tells which column lists are compatible; [limit] is the row
    limit, negative for none. *)
Record grouping (same : list column -> list column -> bool) (aggregated : bool) (limit : Z)
  (tables : list table) (frs : list (list table)) (rest : list table) : Prop := {
  (* nothing lost, repeated or reordered *)
  gr_all : concat frs ++ rest = tables;
  gr_some : Forall (fun fr => fr <> []) frs;
  gr_single : aggregated = false -> Forall (fun fr => length fr = 1%nat) frs;
  (* all tables of a frame are compatible with its first one *)
  gr_same : forall a l t, In (a :: l) frs -> In t l -> joinable same a t;
  gr_limit : 0 <= limit -> Forall (fun fr => rows_in fr <= limit) frs;
  (* a frame ends only at the end of the data, before an incompatible table or before a
     table that would exceed the row limit *)
  gr_maximal : aggregated = true -> forall i a l t, nth_error frs i = Some (a :: l) ->
    hd_error (concat (skipn (S i) frs) ++ rest) = Some t ->
    ~ joinable same a t \/ 0 <= limit < rows_in (a :: l) + t_rows t
}.
