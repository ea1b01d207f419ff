(** Copying rows: the writer's side. *)
From Coq Require Import String.
From Verif Require Import IntProofs Spec Base Fp FpProofs Stream StreamProofs StreamLocal Codec Meta Header HeaderProofs Encoder Table Reader
  FrameProofs Through Writer RowReader RowList WriterSpec WriterProofs WriterRun WriterRead Copy CopySpec.
Open Scope Z_scope.
Local Notation length := List.length.

(** ** Columns *)

Lemma equal_columns_shape : forall a b, equal_columns a b = true <-> map shape a = map shape b.
Proof.
  assert (One : forall x y, equal_column x y = true <-> shape x = shape y).
  { intros x y. unfold equal_column, shape. rewrite !Bool.andb_true_iff, !Z.eqb_eq. split.
    - intros ((A & B) & C). apply bytes_eqb_eq in A. congruence.
    - intros E. assert (col_name x = col_name y) as -> by congruence. rewrite bytes_eqb_refl. repeat split; congruence. }
  induction a as [|x a IH]; intros [|y b]; cbn [equal_columns map]; try (split; [discriminate|discriminate]).
  - tauto.
  - rewrite Bool.andb_true_iff, IH, One. split; [intros [-> ->]; reflexivity|]. intros E. split; congruence.
Qed.

Section Columns.
Variable st : settings.

Lemma copy_reset c : known_type (info c) -> copyable c ->
  exists c1 c2, copy_column st c = Ok c1 /\ reset_codec st c1 = Ok c2 /\ reset_codec st c2 = Ok c2 /\
    make_column st (info c) = Ok c2 /\ shape c2 = shape c.
Proof.
  intros K (B & M). unfold copy_column.
  assert (exists k, clone_codec st (col_type c) (col_coder c) = Ok k /\ data_size_doubles k = data_size_doubles (col_coder c)) as (k & Ek & Dk).
  { unfold clone_codec, data_size_doubles. destruct (chars_based (c_kind (col_coder c))) eqn:Ch.
    - destruct (M eq_refl) as (M1 & M2). cbn [set_stats new_codec c_min c_max]. rewrite M1, M2. cbn [assert bind].
      eexists. split; [reflexivity|]. cbn. now rewrite Ch.
    - eexists. split; [reflexivity|]. cbn. now rewrite Ch. }
  rewrite Ek. cbn [bind]. eexists. 
  assert (exists k1 k2, working_codec st LE (col_type c) = Ok k1 /\ set_data_size k1 (data_size_doubles (col_coder c)) = Ok k2 /\ data_size_doubles k2 = data_size_doubles (col_coder c)) as (k1 & k2 & E1 & E2 & E3).
  { assert (X : exists k1 k2, working_codec st LE (col_type c) = Ok k1 /\ set_data_size k1 (data_size_doubles (col_coder c)) = Ok k2).
    { unfold known_type, info in K. cbn [ci_type ci_size] in K. destruct K as [([T|T] & S)|(T & d & D & S & _)].
      - assert (data_size_doubles (col_coder c) = 1) as -> by lia. destruct T as [-> | ->]; [eexists _, _; split; reflexivity|].
        destruct st as [[] l]; eexists _, _; (split; [vm_compute; reflexivity|vm_compute; reflexivity]).
      - assert (data_size_doubles (col_coder c) = 1) as -> by lia. destruct T as [-> | ->]; eexists _, _; split; reflexivity.
      - rewrite T. eexists _, _; split; [reflexivity|]. reflexivity. }
    destruct X as (k1 & k2 & X1 & X2). exists k1, k2. split; [exact X1|]. split; [exact X2|].
    apply set_data_size_missing in X2. apply X2. }
  eexists. split; [reflexivity|]. unfold reset_codec at 1. cbn [col_type col_coder]. rewrite E1. cbn [bind]. rewrite Dk, E2. cbn [bind].
  split; [reflexivity|]. unfold with_coder. cbn [col_name col_type col_bfnames col_bfsizes col_coder].
  split. { unfold reset_codec. cbn [col_type col_coder]. rewrite E1. cbn [bind]. rewrite E3, E2. reflexivity. }
  split.
  - unfold make_column, info. cbn [ci_type ci_size ci_name ci_bits]. rewrite E1. cbn [bind]. rewrite Z.mul_comm, Z_mod_mult. cbn [Z.eqb assert bind].
    rewrite Z.div_mul by lia. rewrite E2. cbn [bind]. f_equal. destruct (Z.eqb_spec (col_type c) ty_BITFIELD) as [E|E].
    + specialize (B E). f_equal; [clear -B; revert B; generalize (col_bfsizes c) as l2; induction (col_bfnames c); intros [|? ?]; cbn; intros; try congruence; f_equal; auto|].
      clear -B. revert B. generalize (col_bfsizes c) as l2. induction (col_bfnames c); intros [|? ?]; cbn; intros; try congruence. f_equal; auto.
    + reflexivity.
  - unfold shape. cbn [col_name col_type col_coder]. now rewrite E3.
Qed.

Lemma columns_ok md : Forall (fun c => known_type (info c)) md -> Forall copyable md ->
  exists cs base, map_out (copy_column st) md = Ok cs /\ map_out (reset_codec st) cs = Ok base /\ map_out (reset_codec st) base = Ok base /\
    Forall2 (fun ci c => make_column st ci = Ok c) (map info md) base /\ map shape base = map shape md.
Proof.
  intros K C. induction md as [|c md IH]; [exists [], []; cbn; auto|].
  inversion K as [|? ? K1 K2]; inversion C as [|? ? C1 C2]; subst.
  destruct (IH K2 C2) as (cs & base & A1 & A2 & A3 & A4 & A5). destruct (copy_reset c K1 C1) as (c1 & c2 & B1 & B2 & B3 & B4 & B5).
  exists (c1 :: cs), (c2 :: base). cbn [map_out map]. rewrite B1. cbn [bind]. rewrite A1. cbn [bind]. rewrite B2. cbn [bind]. rewrite A2. cbn [bind].
  rewrite B3. cbn [bind]. rewrite A3. cbn [bind]. split; [reflexivity|]. split; [reflexivity|]. split; [reflexivity|].
  split; [constructor; assumption|]. congruence.
Qed.

Lemma gather_row_shape : forall cs row cs', gather_row cs row = Ok cs' -> length row = length cs -> map shape cs' = map shape cs.
Proof.
  induction cs as [|c cs IH]; intros [|x xs] cs' H L; try discriminate; cbn [gather_row] in H.
  - assert (cs' = []) by congruence. now subst.
  - destruct (gather (col_coder c) x) as [k| |] eqn:G; cbn [bind] in H; try discriminate.
    destruct (gather_row cs xs) as [r| |] eqn:R; cbn [bind] in H; try discriminate. assert (cs' = with_coder c k :: r) by congruence. subst.
    cbn [map]. rewrite (IH xs r R) by (cbn in L; lia). f_equal. unfold shape, data_size_doubles. cbn [with_coder col_name col_type col_coder].
    apply gather_keeps in G as (_ & -> & ->). reflexivity.
Qed.

Lemma gather_rows_shape : forall rows cs cs', gather_rows cs rows = Ok cs' -> Forall (fun row => length row = length cs) rows ->
  map shape cs' = map shape cs.
Proof.
  induction rows as [|row rows IH]; intros cs cs' H L; cbn [gather_rows] in H.
  - assert (cs' = cs) by congruence. now subst.
  - inversion L as [|? ? L1 L2]; subst. destruct (gather_row cs row) as [c1| |] eqn:G; cbn [bind] in H; try discriminate.
    pose proof (gather_row_shape _ _ _ G L1) as S1. rewrite (IH c1 cs' H); [exact S1|].
    assert (length c1 = length cs) as -> by (rewrite <- (map_length shape), S1, map_length; reflexivity). exact L2.
Qed.

End Columns.

(** ** A session of a writer *)

Section Session.
Variables st st' : settings.
Variables (pr : props) (md5 : list Z -> list Z).
Hypothesis Hd : digest md5.
Variable N : nat.
Hypothesis HN : (0 < N)%nat.

(** The bytes [D] are frames that hold the rows [rs], each with its columns. *)
Definition frames_hold (D : list Z) (rs : list (list colinfo * list (list Z))) : Prop :=
  exists fs bs, D = concat bs /\ Forall2 (frame_holds st st' pr md5) fs bs /\ flat fs = rs.

Lemma hold_nil : frames_hold [] [].
Proof. exists [], []. repeat split; constructor. Qed.

Lemma hold_app D1 r1 D2 r2 : frames_hold D1 r1 -> frames_hold D2 r2 -> frames_hold (D1 ++ D2) (r1 ++ r2).
Proof.
  intros (f1 & b1 & -> & F1 & <-) (f2 & b2 & -> & F2 & <-). exists (f1 ++ f2), (b1 ++ b2).
  rewrite concat_app, flat_app. split; [reflexivity|]. split; [now apply Forall2_app|reflexivity].
Qed.

Section Cols.
Variables (cols : list colinfo) (base : list column).
Hypothesis WC : writable_columns cols pr.
Hypothesis Hb : Forall2 (fun ci c => make_column st ci = Ok c) cols base.
Notation pending := (pending st cols base).

Lemma session_flush w p out : pending w p out -> (length p <= N)%nat -> (p <> [] -> writable st cols pr p) ->
  exists w' D, flush md5 st N pr w = Ok w' /\ pending w' [] (out ++ D) /\ frames_hold D (map (pair cols) p).
Proof using All.
  intros P L HW. destruct p as [|r p].
  - exists w, []. rewrite app_nil_r. split; [|split; [exact P|apply hold_nil]].
    unfold flush. destruct P as [-> _ -> _ _ _ _]. reflexivity.
  - destruct (flush_ok st st' cols pr WC base Hb md5 Hd N w (r :: p) out P) as (w' & b & F1 & F2 & F3); [discriminate|exact L|apply HW; discriminate|].
    exists w', b. split; [exact F1|]. split; [exact F2|]. exists [(cols, r :: p)], [b]. cbn [concat]. rewrite app_nil_r.
    split; [reflexivity|]. split; [constructor; [exact F3|constructor]|]. unfold flat. cbn [map concat fst snd]. now rewrite app_nil_r.
Qed.

Lemma session_row w p out row : pending w p out -> (length p < N)%nat -> writable st cols pr (p ++ [row]) ->
  exists w' p' D rD, write_row md5 st N pr w (concat row) = Ok w' /\ pending w' p' (out ++ D) /\ (length p' < N)%nat /\
    frames_hold D rD /\ map (pair cols) (p ++ [row]) = rD ++ map (pair cols) p' /\ (p' = p ++ [row] \/ p' = []).
Proof using All.
  intros P L HW. destruct (row_ok st st' cols pr WC base Hb md5 Hd N w p out row []) as (w1 & P1 & R); [exact P|exact L|now rewrite app_nil_r|].
  rewrite R. destruct (Nat.eqb_spec (length (p ++ [row])) N) as [E|E].
  - destruct (session_flush w1 (p ++ [row]) out P1) as (w2 & D & F1 & F2 & F3); [lia|auto|].
    exists w2, [], D, (map (pair cols) (p ++ [row])). rewrite F1. cbn [map length]. rewrite app_nil_r. auto 10.
  - exists w1, (p ++ [row]), [], []. rewrite app_nil_r. split; [reflexivity|]. split; [exact P1|].
    split; [rewrite app_length in *; cbn in *; lia|]. split; [apply hold_nil|]. auto.
Qed.

Lemma pending_shape w p out : pending w p out -> map shape (w_cols w) = map shape base.
Proof using Hb.
  intros [_ _ _ _ _ P6 P7]. apply (gather_rows_shape p base _ P6). apply (shape_len st cols base Hb p P7).
Qed.

(** a new session with the columns [base] *)
Lemma header_ok w : w_cols w = base -> w_rows w = [] -> pending (write_header w) [] (w_out w).
Proof using Hb.
  intros E1 E2. unfold write_header. rewrite E1, E2.
  assert (RB : row_bytes base = total_size cols). { unfold row_bytes, total_size. now rewrite (base_width st cols base Hb). }
  split; cbn [w_init w_last w_rows w_out w_size w_cols]; auto.
  - apply (initial_base st cols base Hb).
  - now destruct (_ && _).
  - rewrite RB. destruct (Z.eqb_spec (w_size w) 0) as [Q|Q]; cbn [negb andb]; [left; auto|].
    destruct (Z.ltb_spec (w_size w) (total_size cols)); [left; auto|right; assumption].
  - cbn [gather_rows]. now rewrite (reset_base st cols base Hb).
Qed.

End Cols.
End Session.
