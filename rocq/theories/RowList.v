(** Specification vocabulary: the rows of a file, each with the columns of its table. *)
From Verif Require Import Base Fp Codec Stream Meta Header Writer Reader RowReader.
Open Scope Z_scope.

(** A row as it is read: the columns of its table and its cells. *)
Notation arow := (list column * list (list Z))%type.

(** The rows an iterator gives, with their columns, and how the iteration ends. *)
Fixpoint list_rows (md5 : list Z -> list Z) (st : settings) (junk : nat -> nat -> list Z) (fuel : nat) (it : riter)
  : list arow * ending :=
  match fuel with
  | O => ([], OutOfFuel)
  | S f =>
      match next_row md5 st junk it with
      | Ok (it1, Some row) => let (rows, e) := list_rows md5 st junk f it1 in ((r_cols it1, row) :: rows, e)
      | Ok (_, None) => ([], Clean)
      | Throw e => ([], Failed e)
      | UB => ([], Undefined)
      end
  end.

Definition file_rows (md5 : list Z -> list Z) (st : settings) (junk : nat -> nat -> list Z) (fuel : nat) (file : list Z)
  : list arow * ending :=
  match open_rows md5 st junk file with
  | Ok it => list_rows md5 st junk fuel it
  | Throw e => ([], Failed e)
  | UB => ([], Undefined)
  end.

(** These are the rows of [read_rows]. *)
Lemma list_rows_rows md5 st junk : forall fuel it,
  all_rows md5 st junk fuel it = (map snd (fst (list_rows md5 st junk fuel it)), snd (list_rows md5 st junk fuel it)).
Proof.
  induction fuel as [|f IH]; intros it; [reflexivity|]. cbn [all_rows list_rows].
  destruct (next_row md5 st junk it) as [[it1 [row|]]| |]; try reflexivity.
  rewrite IH. destruct (list_rows md5 st junk f it1) as [rows e]. reflexivity.
Qed.

Theorem file_rows_rows md5 st junk fuel file :
  read_rows md5 st junk fuel file = (map snd (fst (file_rows md5 st junk fuel file)), snd (file_rows md5 st junk fuel file)).
Proof.
  unfold read_rows, file_rows. destruct (open_rows md5 st junk file) as [it| |]; try reflexivity. apply list_rows_rows.
Qed.
