(** C07 - C15: numeric columns. *)
From Coq Require Import String.
From Verif Require Import Spec Base Fp FpProofs Stream StreamProofs StreamLocal Codec Meta Header Encoder Table
  GatherProofs IntProofs RealProofs StringProofs ColumnProofs RealColumn Md5 Api Through.
Open Scope Z_scope.

(** The missing values are fixed numbers. *)
Theorem missing_values :
  realMDI = 0xC1DFFFFFFFC00000 /\ integerMDI = 0x41DFFFFFFFC00000 /\ bitfieldMDI = integerMDI /\
  integerMDI = z2d MDI /\ realMDI = z2d (- MDI).
Proof. repeat split; vm_compute; reflexivity. Qed.

(** ** C07: the statistics recorded in the frame.  [prepare] yields the codec that
    Encoder.cc stores in the header for a column. *)

Theorem C07_integers : forall st o ci ns, int_type (ci_type ci) -> ci_size ci = 8 -> Forall mid ns ->
  exists k, prepare st o ci (map (int_cell (negb (iad st))) ns) = Ok k /\
    c_missing k = integerMDI /\
    (c_hasMissing k = 1 <-> In MDI ns) /\ (c_hasMissing k = 0 <-> ~ In MDI ns) /\
    ((forall n, In n ns -> n = MDI) -> c_min k = integerMDI /\ c_max k = integerMDI) /\
    (forall n, In n ns -> n <> MDI ->
       exists lo hi, c_min k = z2d lo /\ c_max k = z2d hi /\
         In lo ns /\ lo <> MDI /\ In hi ns /\ hi <> MDI /\ forall m, In m ns -> m <> MDI -> lo <= m <= hi).
Proof.
  intros st o ci ns Ht Hs Hm. destruct (prepare_int st o ci ns Ht Hs Hm) as (h & lo & hi & S & E).
  eexists. split; [exact E|]. split; [reflexivity|].
  cbn [int_codec set_stats c_hasMissing c_min c_max]. destruct S as [S1 S2 S3 S4 S5 S6].
  assert (X : existsb (fun n => n =? MDI) ns = true <-> In MDI ns).
  { rewrite existsb_exists. split; [intros (n & H & Q); apply Z.eqb_eq in Q; now subst|].
    intros H. exists MDI. now rewrite Z.eqb_refl. }
  split; [|split; [|split]].
  - rewrite <- X, S1. destruct (existsb _ ns); split; congruence.
  - rewrite <- X, S1. destruct (existsb _ ns); split; try congruence; intros H; exfalso; now apply H.
  - intros A. destruct S6 as [[-> ->]|(A1 & _ & A2 & _)]; [split; reflexivity|]. destruct A2. auto.
  - intros n Hn Dn. destruct S6 as [[-> ->]|(A1 & A2 & A3 & A4)].
    + specialize (S5 n Hn Dn). lia.
    + exists lo, hi. repeat split; auto; apply S5; assumption.
Qed.
Print Assumptions C07_integers.

(** REAL and DOUBLE columns without NaN (a REAL column can be refused, see C13). *)
Theorem C07_reals : forall st o ci bs k, real_type (ci_type ci) -> ci_size ci = 8 -> Forall num bs ->
  prepare st o ci (map (le_bytes 8) bs) = Ok k ->
    c_missing k = realMDI /\
    (c_hasMissing k = 1 <-> exists v, In v bs /\ deq v realMDI = true) /\
    (c_hasMissing k = 0 <-> ~ exists v, In v bs /\ deq v realMDI = true) /\
    ((forall v, In v bs -> deq v realMDI = true) -> c_min k = realMDI /\ c_max k = realMDI) /\
    (forall v, In v bs -> deq v realMDI = false ->
       In (c_min k) bs /\ deq (c_min k) realMDI = false /\ In (c_max k) bs /\ deq (c_max k) realMDI = false /\
       forall w, In w bs -> deq w realMDI = false -> dlt w (c_min k) = false /\ dlt (c_max k) w = false).
Proof.
  intros st o ci bs k Ht Hs Hn P.
  assert (G : exists kd h mn mx, real_stats bs h mn mx /\ k = real_codec (iad st) o (ci_type ci) kd h mn mx).
  { destruct Ht as [Ht|Ht].
    - destruct (prepare_real st ci bs Ht Hs Hn) as (h & mn & mx & S & E). rewrite E in P.
      destruct (_ && _) in P; [discriminate|]. inversion P. rewrite Ht. eauto 10.
    - destruct (gather_real st ci bs ltac:(now right) Hs Hn) as (col & c1 & h & mn & mx & E1 & E2 & K1 & K2 & S & H1 & H2 & H3 & H4 & _).
      unfold prepare in P. rewrite E1 in P. cbn [bind] in P. rewrite E2 in P. cbn [bind] in P. rewrite Ht in P.
      rewrite (optimize_double_ok st o c1 bs h mn mx) in P by assumption. inversion P. rewrite Ht. eauto 10. }
  destruct G as (kd & h & mn & mx & [S1 S2 S3 S4 S5] & ->).
  split; [reflexivity|]. change (c_hasMissing _) with h. change (c_min _) with mn. change (c_max _) with mx.
  assert (X : existsb (fun v => deq v realMDI) bs = true <-> exists v, In v bs /\ deq v realMDI = true) by apply existsb_exists.
  split; [|split; [|split]].
  - rewrite <- X, S1. destruct (existsb _ bs); split; congruence.
  - rewrite <- X, S1. destruct (existsb _ bs); split; try congruence; intros H; exfalso; now apply H.
  - intros A. destruct S5 as [(-> & -> & _)|(A1 & _ & A2 & _)]; [split; reflexivity|]. rewrite A in A2 by assumption. discriminate.
  - intros v Hv Dv. destruct S5 as [(-> & -> & A)|(A1 & A2 & A3 & A4)]; [rewrite A in Dv by assumption; discriminate|].
    repeat split; auto; apply S4; assumption.
Qed.
Print Assumptions C07_reals.

Theorem C07_witness :
  (forall ns, ns = [5; MDI; -3] -> Forall mid ns) /\
  match prepare doubles LE (col_x ty_INTEGER 8) (map (int_cell false) [5; MDI; -3]) with
  | Ok k => (c_hasMissing k, c_min k, c_max k) = (1, z2d (-3), z2d 5)
  | _ => False
  end.
Proof. split; [intros ns ->; repeat constructor; vm_compute; congruence|]. vm_compute. reflexivity. Qed.

(** ** C09, C10: integers *)

(** Encoding then decoding gives back the cells the user supplied, in the reader's
    integer representation. *)
Theorem C09_int32 : forall md5 tag st st' o ci ns, digest md5 ->
  int_type (ci_type ci) -> ci_size ci = 8 -> Forall int32 ns ->
  fits tag ci (map (int_cell (negb (iad st))) ns) ->
  trip md5 tag st st' o ci (map (int_cell (negb (iad st))) ns) = Ok (map (int_cell (negb (iad st'))) ns).
Proof.
  intros md5 tag st st' o ci ns Hd Ht Hs H F. apply (trip_ok md5 tag st st' o Hd ci _ _ 1); auto.
  apply column_int; auto. split; [|now left]. eapply Forall_impl; [|exact H]. apply int32_mid.
Qed.
Print Assumptions C09_int32.

Theorem C09_witness : Forall int32 [0; -2147483648; MDI; 2147483646] /\ digest md5 /\
  fits odc_tag (col_x ty_INTEGER 8) (map (int_cell false) [0; -2147483648; MDI; 2147483646]) /\
  through1 doubles int64s ty_INTEGER 8 (map (int_cell false) [0; -2147483648; MDI; 2147483646])
    = Ok (map (int_cell true) [0; -2147483648; MDI; 2147483646]).
Proof.
  split; [repeat constructor; vm_compute; congruence|]. split; [exact md5_length|].
  split; [apply fits_x; vm_compute; reflexivity|vm_compute; reflexivity].
Qed.

(** Outside the 32-bit range: what still works ... *)
Theorem C10_close_values : forall md5 tag st st' o ci ns, digest md5 ->
  int_type (ci_type ci) -> ci_size ci = 8 -> Forall mid ns ->
  (forall a b, In a ns -> In b ns -> a <> MDI -> b <> MDI -> a - b < 65535) ->
  fits tag ci (map (int_cell (negb (iad st))) ns) ->
  trip md5 tag st st' o ci (map (int_cell (negb (iad st))) ns) = Ok (map (int_cell (negb (iad st'))) ns).
Proof.
  intros md5 tag st st' o ci ns Hd Ht Hs H R F. apply (trip_ok md5 tag st st' o Hd ci _ _ 1); auto.
  apply column_int; auto. split; auto.
Qed.
Print Assumptions C10_close_values.

Theorem C10_close_values_witness : Forall mid [2 ^ 40; 2 ^ 40 + 1000; MDI] /\
  through1 doubles doubles ty_INTEGER 8 (map (int_cell false) [2 ^ 40; 2 ^ 40 + 1000; MDI])
    = Ok (map (int_cell false) [2 ^ 40; 2 ^ 40 + 1000; MDI]).
Proof. split; [repeat constructor; vm_compute; congruence|vm_compute; reflexivity]. Qed.

(** ... and what does not: as 64-bit integers the value is silently truncated, or rounded
    together with its neighbours; as doubles the conversion is undefined. *)
Theorem C10_refuted :
  through1 int64s int64s ty_INTEGER 8 (map (int_cell true) [0; 2 ^ 32 + 7]) = Ok (map (int_cell true) [0; 7]) /\
  through1 int64s int64s ty_INTEGER 8 (map (int_cell true) [2 ^ 60; 2 ^ 60 + 1]) = Ok (map (int_cell true) [2 ^ 60; 2 ^ 60]) /\
  through1 doubles doubles ty_INTEGER 8 (map (int_cell false) [0; 2 ^ 32 + 7]) = UB.
Proof. repeat split; vm_compute; reflexivity. Qed.
Print Assumptions C10_refuted.

(** ** C11: the width of encoded integers *)

Theorem C11_width : forall st o ci ns k n b lo hi,
  int_type (ci_type ci) -> ci_size ci = 8 -> int_representable ns ->
  prepare st o ci (map (int_cell (negb (iad st))) ns) = Ok k ->
  In n ns -> encode k (int_cell (negb (iad st)) n) = Ok b ->
  (forall m, In m ns -> m <> MDI -> lo <= m <= hi) ->
  (In lo ns /\ In hi ns /\ lo <> MDI /\ hi <> MDI \/ (forall m, In m ns -> m = MDI) /\ lo = hi) ->
  (~ In MDI ns -> Z.of_nat (List.length b) =
     if hi =? lo then 0 else if hi - lo <=? 255 then 1 else if hi - lo <=? 65535 then 2 else 4) /\
  (In MDI ns -> Z.of_nat (List.length b) =
     if hi - lo <? 255 then 1 else if hi - lo <? 65535 then 2 else 4).
Proof.
  intros st o ci ns k n b lo hi Ht Hs Hr P Hn E B T. pose proof Hr as [Hm _].
  destruct (prepare_int st o ci ns Ht Hs Hm) as (h & lo' & hi' & S & P'). rewrite P in P'. inversion P'; subst k. clear P P'.
  assert (E' : encode (int_codec (iad st) o (ci_type ci) (int_kind h (hi' - lo')) h lo' hi') (int_cell (negb (iad st)) n)
               = Ok (int_code o (int_kind h (hi' - lo')) lo' n)).
  { eapply int_encode; eauto. intros K. eapply representable_32; eauto. }
  rewrite E' in E. inversion E; subst b. clear E E'.
  rewrite int_code_length by apply int_kind_cases.
  destruct S as [S1 S2 S3 S4 S5 S6].
  assert (X : existsb (fun n => n =? MDI) ns = true <-> In MDI ns).
  { rewrite existsb_exists. split; [intros (m & H & Q); apply Z.eqb_eq in Q; now subst|].
    intros H. exists MDI. now rewrite Z.eqb_refl. }
  assert (R : hi - lo = hi' - lo').
  { destruct S6 as [[-> ->]|(A1 & A2 & A3 & A4)], T as [(T1 & T2 & T3 & T4)|(T1 & ->)].
    - specialize (S5 lo T1 T3). specialize (S5). pose proof (B lo T1 T3). pose proof (B hi T2 T4).
      unfold MDI in *. lia.
    - lia.
    - pose proof (B lo' A1 A3). pose proof (B hi' A2 A4). pose proof (S5 lo T1 T3). pose proof (S5 hi T2 T4). lia.
    - exfalso. apply A3. auto. }
  replace (hi =? lo) with (hi' - lo' =? 0) by (destruct (Z.eqb_spec hi lo), (Z.eqb_spec (hi' - lo') 0); lia).
  rewrite R. split; intros M.
  - assert (h = 0) as ->. { rewrite S1. destruct (existsb _ ns) eqn:Q; [exfalso; apply M, X; reflexivity|reflexivity]. }
    unfold int_kind. cbn [Z.eqb negb].
    destruct (_ =? 0); [reflexivity|]. destruct (_ <=? 255); [reflexivity|]. destruct (_ <=? 65535); reflexivity.
  - assert (h = 1) as ->. { rewrite S1. apply X in M. now rewrite M. }
    unfold int_kind. cbn [Z.eqb negb].
    destruct (Z.eqb_spec (hi' - lo') 0) as [->|]; [reflexivity|].
    destruct (_ <? 255); [reflexivity|]. destruct (_ <? 65535); reflexivity.
Qed.
Print Assumptions C11_width.

Theorem C11_witness :
  let width ns n := match prepare doubles LE (col_x ty_INTEGER 8) (map (int_cell false) ns) with
                    | Ok k => match encode k (int_cell false n) with Ok b => List.length b | _ => 9%nat end
                    | _ => 9%nat end in
  width [7; 7] 7 = 0%nat /\ width [7; MDI] 7 = 1%nat /\ width [0; 255] 0 = 1%nat /\ width [0; 255; MDI] 0 = 2%nat /\
  width [0; 65535] 0 = 2%nat /\ width [0; 65535; MDI] MDI = 4%nat /\ width [0; 65536] 5 = 4%nat.
Proof. vm_compute. repeat split. Qed.
