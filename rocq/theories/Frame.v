(** Model of FrameImpl::decode, src/odc/api/Odb.cc:354-408: decoding a frame of several
    tables, one after another or by several threads. *)
From Verif Require Import Base Fp Stream Codec Meta Header Table Strided MemDecode.
Open Scope Z_scope.

(** DecodeTarget::slice, core/DecodeTarget.cc:35-44. *)
Fixpoint slice_all (arrs : list strided) (off n : Z) : outcome (list strided) :=
  match arrs with
  | [] => Ok []
  | s :: arrs' =>
      do t <- slice s off n;
      do ts <- slice_all arrs' off n;
      Ok (t :: ts)
  end.

(** Odb.cc:363-375 with one thread: each table decoded before the next slice is taken. *)
Fixpoint serial_decode (file : list Z) (ts : list table) (names : list (list Z)) (arrs : list strided) (off : Z) : traced unit :=
  match ts with
  | [] => tret tt
  | t :: ts' =>
      tbind (lift (slice_all arrs off (t_rows t))) (fun sl =>
      tbind (mdecode_table file t names sl) (fun _ => serial_decode file ts' names arrs (off + t_rows t)))
  end.

(** Odb.cc:363-375 with several threads: the targets only. *)
Fixpoint frame_targets (ts : list table) (arrs : list strided) (off : Z) : outcome (list (list strided)) :=
  match ts with
  | [] => Ok []
  | t :: ts' =>
      do sl <- slice_all arrs off (t_rows t);
      do sls <- frame_targets ts' arrs (off + t_rows t);
      Ok (sl :: sls)
  end.

(** What one thread does for a table: its accesses and how decoding ends.  They do not
    depend on the memory decoded into; the data of the table is read through the table's
    own position in the shared handle (see SharedHandle.v). *)
Definition job := (list op * outcome unit)%type.
Definition table_job (file : list Z) (names : list (list Z)) (t : table) (sl : list strided) : job :=
  tbind (mdecode_table file t names sl) (fun _ => tret tt).

(** A thread, Odb.cc:382-399: about to take the next table; decoding table [i] with some
    accesses left; returned; stopped by an exception. *)
Inductive tstate := Idle | Running (i : nat) (ops : list op) | Finished | Failed (e : exn).
Record pstate := { p_next : nat; p_threads : list tstate; p_mem : mem }.

(** Steps of thread [k].  The mutex makes taking a table atomic (Odb.cc:386-394). *)
Inductive step (jobs : list job) : pstate -> pstate -> Prop :=
| step_take st k ops r : nth_error (p_threads st) k = Some Idle -> nth_error jobs (p_next st) = Some (ops, r) ->
    step jobs st {| p_next := S (p_next st); p_threads := list_set (p_threads st) k (Running (p_next st) ops); p_mem := p_mem st |}
| step_return st k : nth_error (p_threads st) k = Some Idle -> (length jobs <= p_next st)%nat ->
    step jobs st {| p_next := p_next st; p_threads := list_set (p_threads st) k Finished; p_mem := p_mem st |}
| step_access st k i o ops m' : nth_error (p_threads st) k = Some (Running i (o :: ops)) -> exec_op o (p_mem st) = Ok m' ->
    step jobs st {| p_next := p_next st; p_threads := list_set (p_threads st) k (Running i ops); p_mem := m' |}
| step_done st k i ops : nth_error (p_threads st) k = Some (Running i []) -> nth_error jobs i = Some (ops, Ok tt) ->
    step jobs st {| p_next := p_next st; p_threads := list_set (p_threads st) k Idle; p_mem := p_mem st |}
| step_throw st k i ops e : nth_error (p_threads st) k = Some (Running i []) -> nth_error jobs i = Some (ops, Throw e) ->
    step jobs st {| p_next := p_next st; p_threads := list_set (p_threads st) k (Failed e); p_mem := p_mem st |}.

Inductive steps (jobs : list job) : pstate -> pstate -> Prop :=
| steps_refl st : steps jobs st st
| steps_more st st' st'' : steps jobs st st' -> step jobs st' st'' -> steps jobs st st''.

Definition start (n : nat) (m : mem) : pstate := {| p_next := 0; p_threads := repeat Idle n; p_mem := m |}.

Definition stopped (t : tstate) : Prop := t = Finished \/ exists e, t = Failed e.
Definition all_stopped (st : pstate) : Prop := Forall stopped (p_threads st).

(** The result of the call: the threads are waited for in order and the first exception
    found is thrown, Odb.cc:402-406. *)
Fixpoint joined (l : list tstate) : outcome unit :=
  match l with
  | [] => Ok tt
  | Failed e :: _ => Throw e
  | _ :: l' => joined l'
  end.

(** FrameImpl::decode when the frame has several tables. *)
Definition jobs_of (file : list Z) (names : list (list Z)) (ts : list table) (sls : list (list strided)) : list job :=
  map (fun p => table_job file names (fst p) (snd p)) (combine ts sls).

(** FrameImpl::decode, Odb.cc:354-408: what is done with [n] threads.  With no thread and
    several tables only the slices are computed. *)
Inductive plan := Here (tr : traced unit) | Threads (n : nat) (jobs : list job).
Definition frame_decode (n : nat) (file : list Z) (names : list (list Z)) (ts : list table) (arrs : list strided) : plan :=
  match ts with
  | [t] => Here (table_job file names t arrs)
  | _ =>
      if (n =? 1)%nat then Here (serial_decode file ts names arrs 0)
      else match frame_targets ts arrs 0 with
           | Ok sls => if (1 <? n)%nat then Threads n (jobs_of file names ts sls) else Here (tret tt)
           | Throw e => Here ([], Throw e)
           | UB => Here ([], UB)
           end
  end.

(** Complete executions: result and memory at the end. *)
Inductive runs : plan -> mem -> outcome unit -> mem -> Prop :=
| runs_here ops r m m' : exec ops m = Ok m' -> runs (Here (ops, r)) m r m'
| runs_threads n jobs m st : steps jobs (start n m) st -> all_stopped st -> runs (Threads n jobs) m (joined (p_threads st)) (p_mem st).
