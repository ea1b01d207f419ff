(** Model of ThreadSharedDataHandle, src/odc/core/ThreadSharedDataHandle.{h,cc}: several
    handles, each with its own position, over one underlying data handle. *)
From Verif Require Import Base Codec Table.
Local Open Scope nat_scope.

(** What a caller of a handle sees: ThreadSharedDataHandle::seek, position and read with
    their results. *)
Inductive event := ESeek (p : nat) | EPosition (p : nat) | ERead (n : nat) (bs : list Z).

(** Where a call of ThreadSharedDataHandle::read is, ThreadSharedDataHandle.cc:92-104. *)
Inductive pc :=
| Free                            (* no call in progress *)
| Wants (n : nat)                 (* called; lock_guard being constructed (95) *)
| Holds (n : nat)                 (* lock held, position not compared yet (97) *)
| Seeks (n : nat)                 (* about to seek the underlying handle (98) *)
| Reads (n : nat)                 (* about to read the underlying handle (101) *)
| Got (n : nat) (bs : list Z)     (* about to add delta to position_ (102) *)
| Leaves (n : nat) (bs : list Z). (* about to return, unlocking (103-104) *)

(** [h_start] and [h_log] are what has happened so far: the position at creation and the
    calls with their results. *)
Record handle := { h_start : nat; h_pos : nat; h_pc : pc; h_log : list event }.

(** ThreadSharedDataHandle::Internal: the underlying handle, known by its position
    ([y_pos]), and the mutex with its owner. *)
Record sys := { y_pos : nat; y_lock : option nat; y_handles : list handle }.

Definition set_handle (st : sys) (k : nat) (h : handle) : list handle := list_set (y_handles st) k h.

(** One step of the handle [k]; a handle belongs to one thread (its position_ is not
    protected).  The underlying handle reads a file of constant content, delivering all
    bytes asked for up to the end of the file. *)
Inductive hstep (file : list Z) : sys -> sys -> Prop :=
| h_seek st k h p : nth_error (y_handles st) k = Some h -> h_pc h = Free -> (* 125-128 *)
    hstep file st {| y_pos := y_pos st; y_lock := y_lock st; y_handles := set_handle st k
      {| h_start := h_start h; h_pos := p; h_pc := Free; h_log := h_log h ++ [ESeek p] |} |}
| h_position st k h : nth_error (y_handles st) k = Some h -> h_pc h = Free -> (* 121-123 *)
    hstep file st {| y_pos := y_pos st; y_lock := y_lock st; y_handles := set_handle st k
      {| h_start := h_start h; h_pos := h_pos h; h_pc := Free; h_log := h_log h ++ [EPosition (h_pos h)] |} |}
| h_copy st k h : nth_error (y_handles st) k = Some h -> h_pc h = Free -> (* copy constructor, 46-47 *)
    hstep file st {| y_pos := y_pos st; y_lock := y_lock st; y_handles := y_handles st ++
      [{| h_start := h_pos h; h_pos := h_pos h; h_pc := Free; h_log := [] |}] |}
| h_call st k h n : nth_error (y_handles st) k = Some h -> h_pc h = Free ->
    hstep file st {| y_pos := y_pos st; y_lock := y_lock st; y_handles := set_handle st k
      {| h_start := h_start h; h_pos := h_pos h; h_pc := Wants n; h_log := h_log h |} |}
| h_lock st k h n : nth_error (y_handles st) k = Some h -> h_pc h = Wants n -> y_lock st = None ->
    hstep file st {| y_pos := y_pos st; y_lock := Some k; y_handles := set_handle st k
      {| h_start := h_start h; h_pos := h_pos h; h_pc := Holds n; h_log := h_log h |} |}
| h_compare st k h n : nth_error (y_handles st) k = Some h -> h_pc h = Holds n ->
    hstep file st {| y_pos := y_pos st; y_lock := y_lock st; y_handles := set_handle st k
      {| h_start := h_start h; h_pos := h_pos h;
         h_pc := if (h_pos h =? y_pos st)%nat then Reads n else Seeks n; h_log := h_log h |} |}
| h_under_seek st k h n : nth_error (y_handles st) k = Some h -> h_pc h = Seeks n ->
    hstep file st {| y_pos := h_pos h; y_lock := y_lock st; y_handles := set_handle st k
      {| h_start := h_start h; h_pos := h_pos h; h_pc := Reads n; h_log := h_log h |} |}
| h_under_read st k h n : nth_error (y_handles st) k = Some h -> h_pc h = Reads n ->
    hstep file st {| y_pos := y_pos st + length (firstn n (skipn (y_pos st) file)); y_lock := y_lock st; y_handles := set_handle st k
      {| h_start := h_start h; h_pos := h_pos h; h_pc := Got n (firstn n (skipn (y_pos st) file)); h_log := h_log h |} |}
| h_update st k h n bs : nth_error (y_handles st) k = Some h -> h_pc h = Got n bs ->
    hstep file st {| y_pos := y_pos st; y_lock := y_lock st; y_handles := set_handle st k
      {| h_start := h_start h; h_pos := h_pos h + length bs; h_pc := Leaves n bs; h_log := h_log h |} |}
| h_unlock st k h n bs : nth_error (y_handles st) k = Some h -> h_pc h = Leaves n bs ->
    hstep file st {| y_pos := y_pos st; y_lock := None; y_handles := set_handle st k
      {| h_start := h_start h; h_pos := h_pos h; h_pc := Free; h_log := h_log h ++ [ERead n bs] |} |}.

(** One handle, created over an underlying handle at position [p] (36-37, 40-41). *)
Definition created (p : nat) : sys :=
  {| y_pos := p; y_lock := None; y_handles := [{| h_start := p; h_pos := p; h_pc := Free; h_log := [] |}] |}.

Inductive hreach (file : list Z) (p : nat) : sys -> Prop :=
| hr_start : hreach file p (created p)
| hr_step st st' : hreach file p st -> hstep file st st' -> hreach file p st'.
