(** Specification vocabulary for C51. *)
From Verif Require Import Base Fp Stream Codec Meta Header Table Reader ReadSpec.

(** A file made of frames, with the table found in each. *)
Definition made_of (md5 : list Z -> list Z) (st : settings) (l : list (list Z * table)) : Prop :=
  Forall (fun p => frame md5 st (fst p) (snd p)) l.

Definition bytes_of (l : list (list Z * table)) : list Z := concat (map fst l).

(** The (offset, length) of consecutive groups of frames, the first one at [off]. *)
Fixpoint extents (off : Z) (groups : list (list (list Z * table))) : list (Z * Z) :=
  match groups with
  | [] => []
  | g :: gs => (off, Z.of_nat (length (bytes_of g))) :: extents (off + Z.of_nat (length (bytes_of g))) gs
  end.

(** The number of rows in a list of frames. *)
Fixpoint total_rows (l : list (list Z * table)) : Z :=
  match l with [] => 0 | (_, t) :: l' => t_rows t + total_rows l' end.

(** The memory needed for the decoded table, eight bytes per value, and for a list of them. *)
Definition decoded_bytes (t : table) : Z := t_rows t * Z.of_nat (length (t_cols t)) * 8.
Fixpoint total_decoded (l : list (list Z * table)) : Z :=
  match l with [] => 0 | (_, t) :: l' => decoded_bytes t + total_decoded l' end.

(** [r] are the runs of equal consecutive values of [vs]: value and number of repetitions. *)
Record runs (vs : list Z) (r : list (Z * Z)) : Prop := {
  run_all : flat_map (fun p => repeat (fst p) (Z.to_nat (snd p))) r = vs;
  run_pos : Forall (fun p => 0 < snd p) r;
  run_new : forall i a b, nth_error r i = Some a -> nth_error r (S i) = Some b -> fst a <> fst b
}.
