(** C69: what "odc ls" prints. *)
From Coq Require Import String.
From Verif Require Import Base Fp FpProofs FpNearest Stream StreamProofs Codec StringProofs Meta Header Table Reader RowReader RowList Comparator P_Compare P_Query
  Spec ReadSpec Scan Dispatcher DispatchSpec DispatchNames HeaderTool HeaderToolSpec P_HeaderTool P_HeaderText LsTool LsSpec.
Open Scope Z_scope.
Local Notation length := List.length.

(** ** Numbers to the millionth *)

Lemma value_app : forall b a, digits_value (a ++ b) = digits_value a * 10 ^ Z.of_nat (length b) + digits_value b.
Proof.
  intros b. induction b as [|c b IH] using rev_ind; intros a; [rewrite app_nil_r; cbn; lia|].
  rewrite app_assoc, !digits_value_app, IH, app_length. cbn [length]. replace (Z.of_nat (length b + 1)) with (Z.of_nat (length b) + 1) by lia.
  rewrite Z.pow_add_r by lia. lia.
Qed.

Definition six (r : Z) : list Z := map (fun k => 48 + r / 10 ^ k mod 10) [5; 4; 3; 2; 1; 0].
Lemma six_digits r : Forall is_digit (six r) /\ length (six r) = 6%nat.
Proof.
  split; [|reflexivity]. apply Forall_forall. intros c H. apply in_map_iff in H as (k & <- & _). unfold is_digit.
  pose proof (Z.mod_pos_bound (r / 10 ^ k) 10). lia.
Qed.
Lemma six_value r : 0 <= r < 10 ^ 6 -> digits_value (six r) = r.
Proof.
  intros H. unfold six, digits_value. cbn [map fold_left].
  change (10 ^ 5) with (10 * 10 * 10 * 10 * 10). change (10 ^ 4) with (10 * 10 * 10 * 10). change (10 ^ 3) with (10 * 10 * 10). change (10 ^ 2) with (10 * 10).
  change (10 ^ 1) with 10. change (10 ^ 0) with 1. rewrite Z.div_1_r. rewrite <- !Z.div_div by lia.
  pose proof (Z.div_mod r 10). pose proof (Z.div_mod (r / 10) 10). pose proof (Z.div_mod (r / 10 / 10) 10).
  pose proof (Z.div_mod (r / 10 / 10 / 10) 10). pose proof (Z.div_mod (r / 10 / 10 / 10 / 10) 10).
  assert (B : 0 <= r / 10 / 10 / 10 / 10 / 10 < 10).
  { rewrite !Z.div_div by lia. split; [apply Z.div_pos; lia|]. apply Z.div_lt_upper_bound; lia. }
  rewrite (Z.mod_small (r / 10 / 10 / 10 / 10 / 10) 10) by exact B. lia.
Qed.

Lemma rne_half m k : 0 < k -> 2 * Z.abs (rne m k * 2 ^ k - m) <= 2 ^ k.
Proof.
  intros Hk. pose proof (pow2_pos k ltac:(lia)) as P. pose proof (Z.div_mod m (2 ^ k) ltac:(lia)) as D. pose proof (Z.mod_pos_bound m (2 ^ k) ltac:(lia)) as B.
  pose proof (rne_near m k (m / 2 ^ k) Hk) as N0. pose proof (rne_near m k (m / 2 ^ k + 1) Hk) as N1.
  set (q := m / 2 ^ k) in *. set (r := m mod 2 ^ k) in *. set (R := rne m k * 2 ^ k) in *. set (p := 2 ^ k) in *. clearbody q r R p.
  replace (m - q * p) with r in N0 by lia. replace (m - (q + 1) * p) with (r - p) in N1 by lia. lia.
Qed.

Lemma mag_val_bound m : 0 <= m < inf_mag f64 -> 0 <= mag_val f64 m < 2 ^ 2098.
Proof.
  intros H. split; [apply mag_val_nonneg; [cbn; lia|lia]|].
  assert (E : mag_val f64 (inf_mag f64) = 2 ^ 2098) by (vm_compute; reflexivity). rewrite <- E. apply mag_val_mono; [cbn; lia|lia|lia].
Qed.

Lemma fixed_to_millionth x : is64 x -> is_fin f64 x = true -> to_millionth x (fixed_text x).
Proof.
  intros X F. unfold fixed_text.
  assert (Fm : 0 <= mag f64 x < inf_mag f64).
  { unfold is_fin in F. apply Z.ltb_lt in F. split; [|exact F]. unfold mag, negb_, is64 in *. destruct (Z.leb_spec (sign_bit f64) x); lia. }
  assert (N : is_nan f64 x = false) by (unfold is_nan; apply Z.ltb_ge; lia). assert (I1 : is_inf f64 x = false) by (unfold is_inf; apply Z.eqb_neq; lia).
  rewrite N, I1. set (mv := mag_val f64 (mag f64 x)). pose proof (mag_val_bound _ Fm) as Mb. fold mv in Mb.
  set (n := rne (mv * 10 ^ 6) 1074).
  assert (Nb : 0 <= n <= 10 ^ 6 * 2 ^ 1024).
  { apply rne_bounds; [lia|]. rewrite <- Z.mul_assoc, <- Z.pow_add_r by lia. change (1024 + 1074) with 2098. split; [lia|]. apply Z.lt_le_incl. rewrite Z.mul_comm. apply Z.mul_lt_mono_pos_l; lia. }
  pose proof (rne_half (mv * 10 ^ 6) 1074 ltac:(lia)) as Hh. fold n in Hh.
  assert (Q : 0 <= n / 10 ^ 6 < 10 ^ Z.of_nat 320).
  { split; [apply Z.div_pos; lia|]. apply Z.div_lt_upper_bound; [lia|]. eapply Z.le_lt_trans; [exact (proj2 Nb)|].
    apply Z.mul_lt_mono_pos_l; [lia|]. vm_compute. reflexivity. }
  destruct (digits_numeral 320 (n / 10 ^ 6) Q ltac:(lia)) as (D1 & D2 & D3 & D4 & _).
  pose proof (Z.mod_pos_bound n (10 ^ 6) ltac:(lia)) as Rb.
  destruct (six_digits (n mod 10 ^ 6)) as (S1 & S2).
  exists (digits 320 (n / 10 ^ 6)), (six (n mod 10 ^ 6)).
  split; [reflexivity|]. split; [exists (digits 320 (n / 10 ^ 6)); split; [exact D1|]; split; [exact D2|]; split; [exact D3|]; left; rewrite D4; split; [lia|split; reflexivity]|].
  split; [exact D1|]. split; [exact S1|]. split; [exact S2|].
  assert (V : digits_value (digits 320 (n / 10 ^ 6) ++ six (n mod 10 ^ 6)) = n).
  { rewrite value_app, S2, D4, six_value by exact Rb. change (Z.of_nat 6) with 6. pose proof (Z.div_mod n (10 ^ 6) ltac:(lia)). lia. }
  rewrite V. unfold val. fold mv. clearbody mv n.
  destruct (negb_ f64 x); [replace (- n * 2 ^ 1074 - - mv * 10 ^ 6) with (- (n * 2 ^ 1074 - mv * 10 ^ 6)) by ring; rewrite Z.abs_opp|]; exact Hh.
Qed.

(** ** A value *)

Lemma until_nul_in cell : text_in cell (until_nul cell).
Proof.
  split; [intros H; pose proof (until_nul_no_nul cell) as F; rewrite Forall_forall in F; exact (F 0 H eq_refl)|].
  induction cell as [|b cell IH]; cbn [until_nul]; [now left|]. destruct (Z.eqb_spec b 0) as [->|N]; [right; exists cell; reflexivity|].
  destruct IH as [E|(r & E)]; [left; now rewrite <- E|right; exists r; cbn [app]; now rewrite <- E].
Qed.

Lemma cell_shows md c cell : alike md c -> showable c cell -> exists t, ls_cell md c cell = Ok t /\ shows c cell t.
Proof.
  intros (_ & Ty & _) S0. unfold ls_cell. fold (bits_of cell). rewrite Ty.
  destruct (negb (c_hasMissing (col_coder c) =? 0) && (missing_value (col_coder c) =? bits_of cell)) eqn:M.
  { exists (str "."). split; [reflexivity|]. apply sh_missing. unfold absent. lia. }
  assert (NA : ~ absent c cell) by (unfold absent; lia).
  destruct S0 as [A|[(T & n & N & R)|[(T & X & Fi)|(T & L)]]]; [contradiction| | |].
  - assert (B : (col_type c =? ty_INTEGER) || (col_type c =? ty_BITFIELD) = true) by (destruct T as [->| ->]; reflexivity). rewrite B.
    unfold d2i32, d2int. rewrite N. unfold int32 in R. replace ((- 2 ^ 31 <=? n) && (n <=? 2 ^ 31 - 1)) with true by lia.
    exists (decimal n). split; [reflexivity|]. eapply sh_int; [exact NA|exact T|exact N|]. apply decimal_numeral. lia.
  - assert (B : (col_type c =? ty_INTEGER) || (col_type c =? ty_BITFIELD) = false) by (destruct T as [->| ->]; reflexivity). rewrite B.
    assert (B2 : (col_type c =? ty_REAL) || (col_type c =? ty_DOUBLE) = true) by (destruct T as [->| ->]; reflexivity). rewrite B2.
    eexists. split; [reflexivity|]. apply sh_real; auto. now apply fixed_to_millionth.
  - rewrite T. change ((ty_STRING =? ty_INTEGER) || (ty_STRING =? ty_BITFIELD)) with false.
    change ((ty_STRING =? ty_REAL) || (ty_STRING =? ty_DOUBLE)) with false. change (ty_STRING =? ty_STRING) with true. cbn iota.
    replace (firstn (Z.to_nat (8 * data_size_doubles (col_coder c))) cell) with cell by (rewrite <- L, Nat2Z.id; symmetry; apply firstn_all).
    eexists. split; [reflexivity|]. apply sh_text; auto. apply until_nul_in.
Qed.

(** ** A line *)

Definition after (spacer : list Z) (ts : list (list Z)) : list Z := match ts with [] => [] | _ => spacer ++ tabbed ts end.
Lemma after_cons spacer t ts : after spacer (t :: ts) = spacer ++ t ++ after [9] ts.
Proof. unfold after. cbn [tabbed]. destruct ts; [now rewrite app_nil_r|reflexivity]. Qed.

Lemma cells_line : forall md cs cells spacer, Forall2 alike md cs -> Forall2 showable cs cells ->
  exists ts, ls_cells spacer md cs cells = (after spacer ts, Ok tt) /\ Forall2 (fun p t => shows (fst p) (snd p) t) (combine cs cells) ts.
Proof.
  induction md as [|m md IH]; intros cs cells spacer A S0.
  { inversion A; subst. inversion S0; subst. exists []. split; [reflexivity|constructor]. }
  inversion A as [|? c ? cs' A1 A2]; subst. inversion S0 as [|? x ? cells' S1 S2]; subst.
  destruct (cell_shows _ _ _ A1 S1) as (t & T & Sh). destruct (IH cs' cells' [9] A2 S2) as (ts & Ts & Shs).
  exists (t :: ts). split; [|constructor; assumption]. cbn [ls_cells]. rewrite T, Ts, after_cons. reflexivity.
Qed.

Lemma names_line : forall md spacer, ls_names spacer md = after spacer (map col_name md).
Proof. induction md as [|m md IH]; intros spacer; [reflexivity|]. cbn [ls_names map]. now rewrite IH, after_cons. Qed.

Lemma after_nil ts : after [] ts = tabbed ts. Proof. now destruct ts. Qed.

Lemma alike_refl cs : Forall2 alike cs cs.
Proof. induction cs; constructor; [unfold alike; auto|assumption]. Qed.

Definition good_for (r : arow) : Prop := Forall2 showable (fst r) (snd r).

(** ** The file *)

Section Rows.
Variable md5 : list Z -> list Z.
Variable st : settings.
Variable junk : nat -> nat -> list Z.

Lemma loop_lines : forall F it md n rows e, list_rows md5 st junk F it = (rows, e) -> e <> OutOfFuel -> shaped it -> r_end it = false ->
  Forall good_for ((r_cols it, r_last it) :: rows) ->
  exists lines n1, ls_loop md5 st junk (S F) it md n = (joined lines, n1, e) /\ listing md ((r_cols it, r_last it) :: rows) lines /\
    (e = Clean -> n1 = n + 1 + Z.of_nat (length rows)).
Proof.
  induction F as [|F IH]; intros it md n rows e L NE Sh E G.
  { cbn [list_rows] in L. congruence. }
  remember (S F) as F1. cbn [ls_loop]. rewrite E. pose proof (Forall_inv G) as G1. unfold good_for in G1. cbn [fst snd] in G1.
  set (fresh := negb (md_equal md (r_cols it))). set (md1 := if fresh then r_cols it else md).
  assert (A1 : Forall2 alike md1 (r_cols it)).
  { unfold md1, fresh. destruct (md_equal md (r_cols it)) eqn:Q; cbn [negb]; [now apply md_equal_alike|apply alike_refl]. }
  destruct (cells_line md1 _ _ [] A1 G1) as (ts & T & Sw). rewrite T, after_nil.
  assert (Rl : row_line (r_cols it, r_last it) (tabbed ts)) by (exists ts; cbn [fst snd]; split; [clear - G1; induction G1; cbn; congruence|split; [exact Sw|reflexivity]]).
  (* the lines before those of the other rows *)
  set (head := if fresh then [tabbed (map col_name (r_cols it))] else []).
  assert (Hd : (if fresh then ls_names [] md1 ++ [10] else []) = joined head).
  { unfold head, md1, joined. destruct fresh; [|reflexivity]. cbn [map concat]. now rewrite names_line, after_nil, app_nil_r. }
  rewrite Hd.
  assert (Li : forall rs ls, listing md1 rs ls -> listing md ((r_cols it, r_last it) :: rs) (head ++ tabbed ts :: ls)).
  { intros rs ls H. unfold head, md1, fresh in *. destruct (md_equal md (r_cols it)) eqn:Q; cbn [negb] in *; cbn [app].
    - apply li_row; [now apply md_equal_alike|exact Rl|exact H].
    - apply li_new; [cbn [fst]; intros C; apply md_equal_alike in C; congruence|exact Rl|exact H]. }
  subst F1. cbn [list_rows] in L. destruct (next_row md5 st junk it) as [[it1 o]|x|] eqn:N.
  - destruct (next_step _ _ _ _ _ _ Sh N) as (Sh1 & [[E1 ->]|(E1 & -> & C)]).
    + injection L as <- <-. cbn [ls_loop]. rewrite E1. exists (head ++ [tabbed ts]), (n + 1). split; [|split; [apply Li; constructor|cbn; lia]].
      rewrite joined_app. unfold joined at 3. cbn [map concat]. rewrite !app_nil_r. reflexivity.
    + destruct (list_rows md5 st junk F it1) as [rows1 e1] eqn:L1. injection L as <- <-.
      destruct (IH it1 md1 (n + 1) rows1 e1 L1 NE Sh1 E1) as (lines & n1 & H1 & H2 & H3); [exact (Forall_inv_tail G)|].
      rewrite H1. exists (head ++ tabbed ts :: lines), n1. split; [|split; [now apply Li|intros Q; specialize (H3 Q); cbn [length]; lia]].
      f_equal. f_equal. rewrite joined_app. unfold joined at 4. cbn [map concat]. fold (joined lines). now rewrite <- app_assoc.
  - injection L as <- <-. exists (head ++ [tabbed ts]), n. split; [|split; [apply Li; constructor|discriminate]].
    rewrite joined_app. unfold joined at 3. cbn [map concat]. rewrite !app_nil_r. reflexivity.
  - injection L as <- <-. exists (head ++ [tabbed ts]), n. split; [|split; [apply Li; constructor|discriminate]].
    rewrite joined_app. unfold joined at 3. cbn [map concat]. rewrite !app_nil_r. reflexivity.
Qed.
End Rows.

(** The listing of a file has a line for every row that is read, in order, and a line with the names of
    the columns before the first row and wherever the columns change. *)
Theorem C69_lines : forall md5 st junk file fuel rows e,
  file_rows md5 st junk (S fuel) file = (rows, e) -> e <> OutOfFuel -> Forall (fun r => Forall2 showable (fst r) (snd r)) rows ->
  exists lines n, ls_file md5 st junk (S fuel) file = (joined lines, n, e) /\ listing [] rows lines /\
    (e = Clean -> n = Z.of_nat (length rows)).
Proof.
  intros md5 st junk file fuel rows e F NE G. unfold file_rows in F. unfold ls_file.
  destruct (open_rows md5 st junk file) as [it0| |] eqn:O.
  2, 3: injection F as <- <-; unfold begin_rows; rewrite O; cbn [bind]; exists [], 0; split; [reflexivity|]; split; [constructor|reflexivity].
  cbn [list_rows] in F. destruct (next_row md5 st junk it0) as [[it1 o]| |] eqn:N.
  2, 3: injection F as <- <-; unfold begin_rows; rewrite O; cbn [bind]; rewrite N; exists [], 0; split; [reflexivity|]; split; [constructor|reflexivity].
  destruct (begin_steps _ _ _ _ _ _ _ O N) as (B & Sh & _). rewrite B.
  destruct (next_step _ _ _ _ _ _ Sh N) as (Sh1 & [[E1 ->]|(E1 & -> & C)]).
  - injection F as <- <-. cbn [ls_loop]. rewrite E1. exists [], 0. split; [reflexivity|]. split; [constructor|reflexivity].
  - destruct (list_rows md5 st junk fuel it1) as [rows1 e1] eqn:L1. injection F as <- <-.
    destruct (loop_lines md5 st junk fuel it1 [] 0 rows1 e1 L1 NE Sh1 E1 G) as (lines & n1 & H1 & H2 & H3).
    exists lines, n1. split; [exact H1|]. split; [exact H2|]. intros Q. specialize (H3 Q). cbn [length]. lia.
Qed.
