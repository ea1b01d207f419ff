(** Concrete cases for C31 and C48. *)
From Coq Require Import String.
From Verif Require Import Base Fp Stream Codec Meta Header Table Strided P_Strided MemDecode MemProofs P_Memory Frame ThreadProofs P_Threads DecodeWitness.
Open Scope Z_scope.

(** Two tables, of 4 and 2 rows, with two columns; rows of 24 bytes, the last 8 unused. *)
Definition wfile : list Z := wbytes ++ [0;0] ++ c8 5 ++ c8 6 ++ [0;1] ++ c8 8.
Definition wtab2 : table := {| t_start := 40; t_data := 40; t_next := 68; t_size := 28; t_order := LE; t_props := [];
  t_cols := [wcol "a@t"%string; wcol "b@t"%string]; t_rows := 2 |}.
Definition wnames : list (list Z) := [str "b"%string; str "a"%string].
Definition arr_b : strided := {| s_base := 1000; s_nelem := 7; s_size := 8; s_stride := 24 |}.
Definition arr_a : strided := {| s_base := 1008; s_nelem := 7; s_size := 8; s_stride := 24 |}.
Definition m_init : mem := fun x => x mod 251.

Lemma w_good : Forall good [arr_b; arr_a].
Proof. repeat constructor; cbn; lia. Qed.

Lemma w_disjoint : pairwise_disjoint [arr_b; arr_a].
Proof.
  assert (D : forall x, in_array arr_b x -> in_array arr_a x -> False).
  { intros x (r & k & H1 & H2 & E) (r' & k' & H1' & H2' & E'). unfold byte_of, arr_a, arr_b in *. cbn [s_base s_stride s_size s_nelem] in *. lia. }
  intros i j s s' Hi Hj N x X X'. destruct i as [|[|i]], j as [|[|j]]; cbn in Hi, Hj; try congruence;
    try (destruct i; discriminate); try (destruct j; discriminate); injection Hi as <-; injection Hj as <-; eauto using D.
Qed.

Theorem C31_witness : decodable wfile wnames [wtab; wtab2] [arr_b; arr_a] m_init.
Proof.
  constructor; [exact w_good|exact w_disjoint|cbn; lia|repeat constructor; cbn; lia|repeat constructor; cbn; lia|].
  intros [|[|i]] t E; cbn [nth_error] in E; [injection E as <-; vm_compute; reflexivity|injection E as <-; vm_compute; reflexivity|destruct i; discriminate].
Qed.

Definition after (x : outcome mem) (s : strided) : list (list Z) := match x with Ok m => f_elems (content m s) | _ => [] end.

Theorem C31_computed :
  match frame_decode 1 wfile wnames [wtab; wtab2] [arr_b; arr_a] with
  | Here (ops, r) => r = Ok tt /\
      after (exec ops m_init) arr_b = [c8 1; c8 3; c8 4; c8 4; c8 6; c8 8; load m_init (1000 + 6 * 24) 8] /\
      after (exec ops m_init) arr_a = [le_bytes 8 realMDI; c8 2; c8 2; c8 2; c8 5; c8 5; load m_init (1008 + 6 * 24) 8]
  | Threads _ _ => False
  end.
Proof. vm_compute. repeat split. Qed.

(** a table whose data is damaged: decoding it throws *)
Definition wtab3 : table := {| t_start := 40; t_data := 40; t_next := 68; t_size := 20; t_order := LE; t_props := [];
  t_cols := [wcol "a@t"%string; wcol "b@t"%string]; t_rows := 2 |}.
Theorem C31_failure_witness : safe wfile wnames [wtab; wtab3] [arr_b; arr_a] m_init /\
  is_ok (decode_target wfile wtab3 wnames (map (content m_init) (target_of [arr_b; arr_a] [wtab; wtab3] 1))) = false.
Proof.
  split; [|vm_compute; reflexivity].
  constructor; [exact w_good|exact w_disjoint|cbn; lia|repeat constructor; cbn; lia|repeat constructor; cbn; lia|].
  intros [|[|i]] t E; cbn [nth_error] in E; [injection E as <-; vm_compute; discriminate|injection E as <-; vm_compute; discriminate|destruct i; discriminate].
Qed.

Theorem C48_witness : Forall good [arr_b; arr_a] /\ pairwise_disjoint [arr_b; arr_a] /\
  decode_target wfile wtab wnames (map (content m_init) [arr_b; arr_a]) =
    Ok [Some {| f_size := 8; f_elems := [c8 1; c8 3; c8 4; c8 4] ++ skipn 4 (f_elems (content m_init arr_b)) |};
        Some {| f_size := 8; f_elems := [le_bytes 8 realMDI; c8 2; c8 2; c8 2] ++ skipn 4 (f_elems (content m_init arr_a)) |}].
Proof. split; [exact w_good|]. split; [exact w_disjoint|]. vm_compute. reflexivity. Qed.
