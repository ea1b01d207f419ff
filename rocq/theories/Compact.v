(** tools/CompactTool.cc: rewriting a file and checking the copy. *)
From Verif Require Import Base Fp Stream Codec Meta Header Encoder Table Writer Reader RowReader Comparator Copy.
Open Scope Z_scope.

(** CompactTool::run, tools/CompactTool.cc:27-58, without the command line; FixedSizeRowTool.cc
    runs the same statements.  All rows of [file] are copied to a new file ([copy_file]), which
    is then compared with [file], row by row, by a Comparator made without arguments
    (Comparator.h:40: skipTestingHaveMissing_ is false, nothing is excluded; [nans] is
    $odc_NAN_IS_OK).  The result is the copy and the result of the comparison; an exception of
    the latter ends the tool, with the copy on disk.
    Simplified: the verification reads the whole copy.  In the code the writer still has the
    output file open then, since close() leaves a handle that it opened itself
    (WriterBufferingIterator.cc:368-376); what the reader sees is what the data handle has passed on to the file system. *)
Definition compact_file (md5 : list Z -> list Z) (st : settings) (N : nat) (pr : props) (nans : bool)
  (junk junk1 junk2 : nat -> nat -> list Z) (fuel : nat) (file : list Z) : outcome (list Z * outcome unit) :=
  do copy <- copy_file md5 st N pr junk fuel file;
  Ok (copy, compare_files false nans [] [] md5 st st junk1 junk2 fuel file copy).
