(** A digest that is quick to compute, for the concrete cases (the theorems hold for every
    function that gives 32 bytes; the real MD5 is in Md5.v and used in Golden.v). *)
From Verif Require Import Base Stream StreamProofs.
Open Scope Z_scope.

Definition quick (l : list Z) : list Z := le_bytes 32 (fold_left (fun a b => (a * 31 + b) mod 2 ^ 61) l 7).
Lemma quick_length l : length (quick l) = 32%nat.
Proof. apply le_bytes_length. Qed.
