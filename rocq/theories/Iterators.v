(** Several iterators over one TablesReader, advanced in any interleaving. *)
From Verif Require Import Base Stream Codec Meta Header Table Reader.

Section WithMd5.
Variable md5 : list Z -> list Z.
Variable st : settings.
Variable est : Z.
Variable file : list Z.

(** What a client may do with iterator number k: look at the table it is on
    (operator*, TablesReader.cc:58-76) or advance it (operator++, TablesReader.cc:40-49).
    Each call is one step: ensureTable runs under the reader's mutex
    (TablesReader.cc:102); getTable (:128-134) only looks at a slot that is already
    filled.  (C++ additionally needs that tables_ is not reallocated while getTable reads
    it: that data race is not modelled.) *)
Inductive event := Look (k : nat) | Advance (k : nat).

(** tables_ and the pos_ of each iterator. *)
Record shared := { s_tables : list table; s_pos : list Z }.

(** Looking yields the table, or None when the iterator equals end().  Clients do not
    advance an iterator that has reached end(): that call would restart it. *)
Definition step (s : shared) (e : event) : outcome (shared * option (nat * option table)) :=
  match e with
  | Look k =>
      match nth_error (s_pos s) k with
      | None => Ok (s, None)
      | Some p =>
          if p =? -1 then Ok (s, Some (k, None))
          else do t <- iter_get (s_tables s) p; Ok (s, Some (k, Some t))
      end
  | Advance k =>
      match nth_error (s_pos s) k with
      | None => Ok (s, None)
      | Some p =>
          if p =? -1 then Ok (s, None)
          else do (ts, p') <- iter_next md5 st est file (s_tables s) p;
               Ok ({| s_tables := ts; s_pos := list_set (s_pos s) k p' |}, None)
      end
  end.

(** begin() called [n] times, TablesReader.cc:22-29. *)
Fixpoint begin_all (n : nat) (s : shared) : outcome shared :=
  match n with
  | O => Ok s
  | S n' =>
      do (ok, ts) <- ensure_table md5 st est file (s_tables s) 0;
      begin_all n' {| s_tables := ts; s_pos := s_pos s ++ [if ok then 0 else -1] |}
  end.

(** The observations made, in order, and the final state. *)
Fixpoint run (evs : list event) (s : shared) : outcome (list (nat * option table) * shared) :=
  match evs with
  | [] => Ok ([], s)
  | e :: evs' =>
      do (s', ob) <- step s e;
      do (obs, s'') <- run evs' s';
      Ok (match ob with Some x => x :: obs | None => obs end, s'')
  end.

Definition run_all (n : nat) (evs : list event) : outcome (list (nat * option table) * shared) :=
  do s <- begin_all n {| s_tables := []; s_pos := [] |};
  run evs s.
End WithMd5.
