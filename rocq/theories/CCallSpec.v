(** What the calls made on an encoder of the C API ask for. *)
From Verif Require Import Base Stream CEncoder.
Open Scope Z_scope.

(** the columns declared, in order *)
Definition declared (calls : list call) : list (list Z * Z) :=
  flat_map (fun c => match c with AddColumn nm ty => [(nm, ty)] | _ => [] end) calls.

(** what the last call that has a say has said *)
Fixpoint latest {A} (says : call -> option A) (calls : list call) : option A :=
  match calls with
  | [] => None
  | c :: calls' => match latest says calls' with Some x => Some x | None => says c end
  end.

(** a property *)
Definition property_of (k : list Z) (calls : list call) : option (list Z) :=
  latest (fun c => match c with AddProperty k' v => if bytes_eqb k k' then Some v else None | _ => None end) calls.
(** the rows of a frame *)
Definition frame_rows_of (calls : list call) : option Z := latest (fun c => match c with SetRowsPerFrame n => Some n | _ => None end) calls.
(** the number of rows, if it is given *)
Definition rows_of (calls : list call) : option Z := latest (fun c => match c with SetRowCount n => Some n | _ => None end) calls.

(** the calls, each with the number of columns declared before *)
Fixpoint numbered (n : Z) (calls : list call) : list (Z * call) :=
  match calls with
  | [] => []
  | c :: calls' => (n, c) :: numbered (match c with AddColumn _ _ => n + 1 | _ => n end) calls'
  end.

Definition doubles (s : Z) : Prop := 0 <= s /\ s mod 8 = 0.

(** the size that call [c] asks for column [i], with [n] columns declared *)
Definition asks_size (i : Z) (nc : Z * call) (s : Z) : Prop :=
  i < fst nc /\ doubles s /\
  (snd nc = SetDataSize i s \/ exists stride data, doubles stride /\ snd nc = SetColumnArray i s stride data).
(** the size of column [i] is that of the last call that asks for one, and otherwise 0 *)
Definition sized (i : Z) (calls : list call) (s : Z) : Prop :=
  (exists before nc later, numbered 0 calls = before ++ nc :: later /\ asks_size i nc s /\ forall nc' s', In nc' later -> ~ asks_size i nc' s') \/
  (s = 0 /\ forall nc' s', In nc' (numbered 0 calls) -> ~ asks_size i nc' s').

(** the members of column [i]: those that fit, in order *)
Definition add_member (i : Z) (l : list (list Z * Z)) (nc : Z * call) : list (list Z * Z) :=
  match snd nc with
  | AddBitfield col nm nbits =>
      if (col =? i) && (i <? fst nc) && (0 <=? bits_total l + nbits) && (bits_total l + nbits <=? 32) then l ++ [(nm, nbits)] else l
  | _ => l
  end.
Definition members_of (i : Z) (calls : list call) : list (list Z * Z) := fold_left (add_member i) (numbered 0 calls) [].
