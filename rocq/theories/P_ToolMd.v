(** C74: the mdset and index tools. *)
From Coq Require Import String.
From Verif Require Import Spec CsvSpec CsvText Csv Base Fp Stream StreamProofs StreamLocal Codec Meta Header Encoder Table Reader ReadSpec
  ColumnProofs HeaderProofs ReaderProofs TableProofs StringProofs P_Reader P_Tables P_Scan ScanSpec Through LoadProofs MdSet MdProofs MdSpec P_MdSet.
From Verif Require Import RowList Writer WriterSpec RowReader Scan Index IndexSpec P_Index CommandLine CommandLineSpec ToolRest P_ToolRest.
Open Scope Z_scope.
Local Notation length := List.length.

(** The file named last holds the tables of the one named before it, with their headers
    rewritten as the first parameter asks. *)
Theorem C74_mdset : forall files md5 st to_double arg chs l fuel words items t i o, digest md5 ->
  reading [] items words -> plain_words items = [t; arg; i; o] -> files i = Some (bytes_of l) ->
  (forall w v, to_double w = Ok v -> is64 v) -> bytes_ok arg -> asks to_double arg chs ->
  made_of md5 st l -> bytes_ok (bytes_of l) -> (length l < fuel)%nat ->
  Forall (fun p => suits st chs (snd p)) l ->
  exists l', mdset_main files md5 st to_double fuel words = Ok (o, (bytes_of l', Ok tt)) /\ rewritten md5 st chs l l'.
Proof.
  intros files md5 st to_double arg chs l fuel words items t i o Hd R P F Td Ba A G B Hf W.
  destruct (C54_tables md5 st to_double arg chs l (Z.of_nat (length (bytes_of l))) fuel Hd Td Ba A G B) as (l' & E & Rw); [|exact Hf|exact W|].
  { right. unfold len. lia. }
  exists l'. split; [|exact Rw]. rewrite (mdset_is files md5 st to_double fuel words items t arg i o _ R P F), E. reflexivity.
Qed.
Print Assumptions C74_mdset.

(** The index of the file named first goes to the file named second, or to one with ".idx"
    after its name. *)
Theorem C74_index : forall files md5 st st' N pr select l vss fuel words items t i o, digest md5 -> (0 < N)%nat -> iad st = true ->
  reading [] items words -> plain_words items = [t; i; o] \/ plain_words items = [t; i] /\ o = i ++ str ".idx" -> files i = Some (bytes_of l) ->
  (Z.of_nat N < 65536) -> props_ok pr -> total (fun kv => 8 + len (fst kv) + len (snd kv)) pr < 2 ^ 30 ->
  made_of md5 st l -> (length l < fuel)%nat -> len (bytes_of l) < 2 ^ 31 ->
  Forall2 (fun p vs => select (fst p) = Ok vs) l vss -> Forall (fun vs => Forall int32 vs /\ len vs < 2 ^ 31) vss ->
  exists file es, index_main files md5 st N pr select fuel words = Ok (o, file) /\
    index_of 0 (map fst l) vss es /\
    forall junk, exists rows, Forall2 (fun e row => index_like (fst row) /\ snd row = entry_row (negb (iad st')) e) es rows /\
      forall f, (length es < f)%nat -> file_rows md5 st' junk f file = (rows, Clean).
Proof.
  intros files md5 st st' N pr select l vss fuel words items t i o Hd HN Hi R P F Hm Pr Sp M Hf Big Sel Vs.
  destruct (C64_index md5 st st' N pr select l vss (Z.of_nat (length (bytes_of l))) fuel Hd HN Hi Hm Pr Sp M) as (file & es & E & I0 & X); try assumption.
  { right. unfold len. lia. }
  exists file, es. split; [|split; [exact I0|exact X]].
  rewrite (index_is files md5 st N pr select fuel words items t i o _ R P F), E. reflexivity.
Qed.
Print Assumptions C74_index.
