(** Properties C01 and C02: data streams. *)
From Verif Require Import Base Stream StreamProofs StreamLocal.

(** C01.  Whatever is written is read back equal, in both byte orders, and the bytes
    that follow ([rest]) are left untouched.  Strings, vectors and maps carry an int32
    length. *)
Theorem C01_i32 : forall (o : order) (z : Z) rest, - 2 ^ 31 <= z < 2 ^ 31 ->
  read_i32 o (w_int o 4 z ++ rest) = Ok (z, rest).
Proof. exact read_i32_app. Qed.
Print Assumptions C01_i32.

Theorem C01_i64 : forall (o : order) (z : Z) rest, - 2 ^ 63 <= z < 2 ^ 63 ->
  read_i64 o (w_int o 8 z ++ rest) = Ok (z, rest).
Proof. exact read_i64_app. Qed.
Print Assumptions C01_i64.

(** a double is its 64-bit pattern *)
Theorem C01_double : forall (o : order) (bits : Z) rest, 0 <= bits < 2 ^ 64 ->
  read_f64 o (w_int o 8 bits ++ rest) = Ok (bits, rest).
Proof. exact read_f64_app. Qed.
Print Assumptions C01_double.

Theorem C01_string : forall (o : order) (s rest : list Z), Z.of_nat (length s) < 2 ^ 31 ->
  read_string o (w_string o s ++ rest) = Ok (s, rest).
Proof. exact read_string_app. Qed.
Print Assumptions C01_string.

Theorem C01_strings : forall (o : order) (l : list (list Z)) rest,
  Z.of_nat (length l) < 2 ^ 31 -> (forall s, In s l -> Z.of_nat (length s) < 2 ^ 31) ->
  read_vec o (read_string o) (w_vec o (w_string o) l ++ rest) = Ok (l, rest).
Proof.
  intros o l rest H1 H2. apply read_vec_app; [exact H1| |].
  - intros x _. unfold w_string. rewrite app_length, w_int_length. apply Nat.le_trans with 4%nat; lia.
  - intros x r Hx. apply read_string_app. exact (H2 x Hx).
Qed.
Print Assumptions C01_strings.

Theorem C01_ints : forall (o : order) (l : list Z) rest,
  Z.of_nat (length l) < 2 ^ 31 -> (forall z, In z l -> - 2 ^ 31 <= z < 2 ^ 31) ->
  read_vec o (read_i32 o) (w_vec o (w_int o 4) l ++ rest) = Ok (l, rest).
Proof.
  intros o l rest H1 H2. apply read_vec_app; [exact H1| |].
  - intros x _. rewrite w_int_length. lia.
  - intros x r Hx. apply read_i32_app. exact (H2 x Hx).
Qed.
Print Assumptions C01_ints.

(** A std::map is its entries in increasing key order. *)
Theorem C01_map : forall (o : order) (m : smap (list Z)) rest,
  msorted m -> Z.of_nat (length m) < 2 ^ 31 ->
  (forall k v, In (k, v) m -> Z.of_nat (length k) < 2 ^ 31 /\ Z.of_nat (length v) < 2 ^ 31) ->
  read_map o (w_map o m ++ rest) = Ok (m, rest).
Proof.
  intros o m rest H1 H2 H3. apply read_map_app. split; [exact H1|]. split; [exact H2|].
  apply Forall_forall. intros [k v] Hin. exact (H3 k v Hin).
Qed.
Print Assumptions C01_map.

Theorem C01_witness :
  read_map BE (w_map BE [([97], [1; 2]); ([97; 98], [])] ++ [7]) = Ok ([([97], [1; 2]); ([97; 98], [])], [7])
  /\ msorted [([97], [1; 2]); ([97; 98], [])]
  /\ read_i32 BE (w_int BE 4 (-2) ++ [9; 9]) = Ok (-2, [9; 9])
  /\ w_int BE 4 (-2) <> w_int LE 4 (-2).
Proof. cbn. repeat split; congruence. Qed.

(** C02.  A raw read of n >= 0 bytes returns exactly the next n bytes, or raises the
    end-of-stream error when fewer remain. *)
Theorem C02_raw : forall (n : Z) (s : list Z), 0 <= n ->
  match read_raw n s with
  | Ok (b, s') => s = b ++ s' /\ Z.of_nat (length b) = n
  | Throw e => e = EndOfStream /\ Z.of_nat (length s) < n
  | UB => False
  end.
Proof. exact read_raw_spec. Qed.
Print Assumptions C02_raw.

(** Typed reads: whatever a successful read returns was determined by a prefix [b] of the
    stream (the rest is left for later and may be anything). *)
Theorem C02_local : forall (o : order),
  local (read_i32 o) /\ local (read_i64 o) /\ local (read_f64 o) /\ local (read_string o) /\
  local (read_vec o (read_string o)) /\ local (read_vec o (read_i32 o)) /\
  local (read_vec o (read_f64 o)) /\ local (read_map o).
Proof.
  intros o. repeat split; apply slocal_local;
  [ apply read_i32_slocal | apply read_i64_slocal | apply read_f64_slocal | apply read_string_slocal
  | apply read_vec_slocal, read_string_slocal | apply read_vec_slocal, read_i32_slocal
  | apply read_vec_slocal, read_f64_slocal | apply read_map_slocal ].
Qed.
Print Assumptions C02_local.

(** and a read that fails is an exception, never undefined behaviour: with fewer bytes
    than the value needs it is the end-of-stream error. *)
Theorem C02_short : forall (o : order) (s : list Z), (length s < 4)%nat ->
  read_i32 o s = Throw EndOfStream /\ read_string o s = Throw EndOfStream /\
  read_map o s = Throw EndOfStream /\ read_i64 o s = Throw EndOfStream /\ read_f64 o s = Throw EndOfStream.
Proof.
  intros o s H.
  assert (E4 : read_raw 4 s = Throw EndOfStream).
  { unfold read_raw. destruct (Z.ltb_spec (Z.of_nat (length s)) 4); [reflexivity|lia]. }
  assert (E8 : read_raw 8 s = Throw EndOfStream).
  { unfold read_raw. destruct (Z.ltb_spec (Z.of_nat (length s)) 8); [reflexivity|lia]. }
  unfold read_map, read_string, read_f64, read_i64, read_i32, read_uint. rewrite E4, E8. cbn. auto.
Qed.
Print Assumptions C02_short.

(** A string whose announced length exceeds what is left raises the end-of-stream error. *)
Theorem C02_short_string : forall (o : order) (n : Z) (s : list Z),
  Z.of_nat (length s) < n < 2 ^ 31 -> read_string o (w_int o 4 n ++ s) = Throw EndOfStream.
Proof.
  intros o n s H. unfold read_string. rewrite read_i32_app by lia. cbn [bind].
  destruct (Z.ltb_spec n 0); [lia|]. unfold read_raw.
  destruct (Z.ltb_spec (Z.of_nat (length s)) n); [reflexivity|lia].
Qed.
Print Assumptions C02_short_string.

Theorem C02_witness :
  read_raw 2 [1; 2; 3] = Ok ([1; 2], [3]) /\ read_raw 4 [1; 2; 3] = Throw EndOfStream
  /\ read_string LE (w_int LE 4 5 ++ [1; 2; 3]) = Throw EndOfStream.
Proof. cbn. auto. Qed.
