(** C45: importing a table from delimited text. *)
From Coq Require Import String.
From Verif Require Import IntProofs Base Fp FpProofs FpNearest Stream StreamProofs StreamLocal Codec Meta Header HeaderProofs Encoder Table Reader
  FrameProofs Through Writer RowReader RowList WriterSpec WriterProofs WriterRun WriterRead OrdinaryProofs Comparator P_Compare Copy CopySpec CopyProofs P_Copy
  Spec DispatchSpec Csv CsvSpec CsvText CsvRows.
Open Scope Z_scope.
Local Notation length := List.length.
Local Notation small := WriterSpec.small.

(** ** No other integer is converted to the same double as a 32-bit integer *)

Lemma round_small m : 0 <= m < 2 ^ 53 -> 0 <= round_mag f64 m 0 < 1076 * 2 ^ 52.
Proof.
  intros H. destruct (Z.eq_dec m 0) as [->|N]; [cbn; lia|]. unfold round_mag. destruct (Z.eqb_spec m 0) as [|_]; [contradiction|].
  assert (L : Z.log2 m < 53) by (apply Z.log2_lt_pow2; lia). pose proof (Z.log2_nonneg m) as L0. pose proof (Z.log2_spec m ltac:(lia)) as (_ & Ls). rewrite emin64, inf64. cbn [mb f64].
  replace (Z.max (0 + Z.log2 m - 52) (-1074)) with (Z.log2 m - 52) by lia. destruct (Z.leb_spec (Z.log2 m - 52) 0); [|lia].
  assert (Q : m * 2 ^ (0 - (Z.log2 m - 52)) < 2 ^ 53).
  { replace (2 ^ 53) with (2 ^ (Z.succ (Z.log2 m)) * 2 ^ (0 - (Z.log2 m - 52))) by (rewrite <- Z.pow_add_r by lia; f_equal; lia).
    apply Z.mul_lt_mono_pos_r; [apply Z.pow_pos_nonneg; lia|exact Ls]. }
  assert (0 <= m * 2 ^ (0 - (Z.log2 m - 52))) by (apply Z.mul_nonneg_nonneg; [lia|apply Z.pow_nonneg; lia]).
  assert (0 <= (Z.log2 m - 52 - -1074) * 2 ^ 52 <= 1074 * 2 ^ 52) by (change (2 ^ 52) with 4503599627370496; lia).
  change (2 ^ 53) with (2 * 2 ^ 52) in Q. lia.
Qed.
Lemma round_large n : 2 ^ 53 <= n -> 1076 * 2 ^ 52 <= round_mag f64 n 0 <= inf_mag f64.
Proof.
  intros H. unfold round_mag. destruct (Z.eqb_spec n 0) as [|_]; [lia|]. rewrite emin64. cbn [mb f64].
  assert (L : 53 <= Z.log2 n) by (apply Z.log2_le_pow2; lia). pose proof (Z.log2_spec n ltac:(lia)) as (Ls & Lh).
  replace (Z.max (0 + Z.log2 n - 52) (-1074)) with (Z.log2 n - 52) by lia. destruct (Z.leb_spec (Z.log2 n - 52) 0); [lia|].
  assert (Q : 2 ^ 52 <= rne n (Z.log2 n - 52 - 0) <= 2 ^ 53).
  { apply rne_bounds; [lia|]. rewrite <- !Z.pow_add_r by lia. replace (52 + (Z.log2 n - 52 - 0)) with (Z.log2 n) by lia. replace (53 + (Z.log2 n - 52 - 0)) with (Z.succ (Z.log2 n)) by lia. lia. }
  rewrite inf64. split; [|lia]. assert (1075 * 2 ^ 52 <= (Z.log2 n - 52 - -1074) * 2 ^ 52) by (apply Z.mul_le_mono_nonneg_r; [lia|lia]). lia.
Qed.
Lemma z2d_only n m : - 2 ^ 53 < m < 2 ^ 53 -> z2d n = z2d m -> n = m.
Proof.
  intros Hm E. destruct (Z.le_gt_cases (2 ^ 53) (Z.abs n)) as [L|L]; [|apply z2d_inj; unfold FpProofs.small; auto; lia]. exfalso.
  pose proof (round_small (Z.abs m) ltac:(lia)) as A. pose proof (round_large (Z.abs n) L) as B. rewrite inf64 in B. unfold z2d, round in E. rewrite sign64 in E.
  destruct (Z.ltb_spec n 0) as [P1|P1]; [rewrite Z.abs_neq in B by lia|rewrite Z.abs_eq in B by lia];
    (destruct (Z.ltb_spec m 0) as [P2|P2]; [rewrite Z.abs_neq in A by lia|rewrite Z.abs_eq in A by lia]); lia.
Qed.
Lemma int_cell_only n m : int32 m -> int_cell false n = int_cell false m -> n = m.
Proof.
  unfold int32, int_cell. intros Hm E. apply z2d_only; [lia|].
  assert (R : forall k, 0 <= z2d k < 2 ^ 64).
  { intros k. destruct (Z.le_gt_cases (2 ^ 53) (Z.abs k)) as [L|L].
    - pose proof (round_large (Z.abs k) L) as B. rewrite inf64 in B. unfold z2d, round. rewrite sign64. destruct (Z.ltb_spec k 0); [rewrite Z.abs_neq in B by lia|rewrite Z.abs_eq in B by lia]; lia.
    - pose proof (round_small (Z.abs k) ltac:(lia)) as B. unfold z2d, round. rewrite sign64. destruct (Z.ltb_spec k 0); [rewrite Z.abs_neq in B by lia|rewrite Z.abs_eq in B by lia]; lia. }
  rewrite <- (le_val_small 8 (z2d n)) by (pose proof (R n); lia). rewrite <- (le_val_small 8 (z2d m)) by (pose proof (R m); lia). now rewrite E.
Qed.

Lemma sum_le {A B} (P : A -> B -> Prop) (f : B -> Z) (g : A -> Z) l m : Forall2 P l m -> (forall a b, P a b -> f b <= g a) -> total f m <= total g l.
Proof. intros F H. unfold total. induction F as [|a b l m Q _ IH]; cbn [fold_right]; [lia|]. specialize (H a b Q). lia. Qed.
Lemma sum_map {A} (f : A -> Z) l : fold_right Z.add 0 (map f l) = total f l.
Proof. unfold total. induction l; cbn; [reflexivity|]. now rewrite IHl. Qed.
Lemma total_map {A B} (f : B -> Z) (g : A -> B) l : total f (map g l) = total (fun a => f (g a)) l.
Proof. unfold total. induction l; cbn; [reflexivity|]. now rewrite IHl. Qed.

Section Import.
Variables st st' : settings.
Hypothesis Hiad : iad st = true.
Hypothesis Hlong : long_strings st = false.
Variable delim : list Z.
Hypothesis Hdelim : ~ In 10 delim.
Variables (to_float to_double to_long : list Z -> outcome Z) (unquote : list Z -> list Z).
Variable junk : nat -> nat -> list Z.
Hypothesis Hjunk : forall n i, bytes_ok (junk n i).
Variable W : Z.
Hypothesis HW : 1 <= W.
Hypothesis HW' : 8 * W < 2 ^ 31.
Variable cols : list colinfo.
Hypothesis Htypes : Forall (fun ci => (int_type (ci_type ci) \/ real_type (ci_type ci) \/ ci_type ci = ty_STRING) /\ ci_size ci = 8) cols.
Hypothesis Hbits : Forall (fun ci => ci_type ci <> ty_BITFIELD -> ci_bits ci = []) cols.
Hypothesis Hwc : writable_columns cols [].
Variable md5 : list Z -> list Z.
Hypothesis Hd : digest md5.
Variable N : nat.
Hypothesis HN : (0 < N)%nat.
Hypothesis Hsmall : small (Z.of_nat N) (map (widest W) cols) [].

Local Notation importable := (importable to_float to_double to_long unquote W).
Local Notation like := (like st W).
Local Notation stored := (stored to_float to_double to_long unquote).
Local Notation row_stored := (row_stored st to_float to_double to_long unquote W cols).
Local Notation at_rows := (at_rows delim to_float to_double to_long unquote junk).
Local Notation means := (means to_float to_double to_long unquote).

Definition wide (ci : colinfo) (d : Z) : colinfo :=
  {| ci_name := ci_name ci; ci_type := ci_type ci; ci_size := 8 * d; ci_bits := ci_bits ci |}.

Lemma combine_fst_snd (l : list (list Z * Z)) : combine (map fst l) (map snd l) = l.
Proof using. induction l as [|[a b] l IH]; cbn; [reflexivity|]. now rewrite IH. Qed.

Lemma info_like ci c : In ci cols -> like ci c -> info c = wide ci (dsize c).
Proof using All.
  intros Hin [_ A B C D _ _]. unfold info, wide. rewrite A, B, C, D. fold (dsize c). f_equal.
  destruct (Z.eqb_spec (ci_type ci) ty_BITFIELD) as [_|Q]; [apply combine_fst_snd|]. rewrite Forall_forall in Hbits. now rewrite (Hbits ci Hin Q).
Qed.

Lemma infos cs : Forall2 like cols cs -> Forall2 (fun ci i => exists d, i = wide ci d /\ 1 <= d <= W /\ (ci_type ci <> ty_STRING -> d = 1)) cols (map info cs).
Proof using All.
  intros F. assert (X : forall l, incl l cols -> forall cs, Forall2 like l cs -> Forall2 (fun ci i => exists d, i = wide ci d /\ 1 <= d <= W /\ (ci_type ci <> ty_STRING -> d = 1)) l (map info cs)).
  { intros l Hl cs'. induction 1 as [|ci c l' cs' H _ IH]; cbn [map]; constructor.
    - exists (dsize c). split; [apply info_like; [apply Hl; now left|exact H]|]. split; [apply (li_size _ _ _ _ H)|apply (li_one _ _ _ _ H)].
    - apply IH. intros x Hx. apply Hl. now right. }
  apply X; [apply incl_refl|exact F].
Qed.

Lemma same_map {A} (f : colinfo -> A) l is : Forall2 (fun ci i => exists d, i = wide ci d /\ 1 <= d <= W /\ (ci_type ci <> ty_STRING -> d = 1)) l is ->
  (forall ci d, f (wide ci d) = f ci) -> map f is = map f l.
Proof using. intros F H. induction F as [|ci i l is (d & -> & _) _ IH]; cbn [map]; [reflexivity|]. now rewrite H, IH. Qed.

Lemma columns_writable cs : Forall2 like cols cs -> writable_columns (map info cs) [].
Proof using All.
  intros F. pose proof (infos cs F) as I. destruct Hwc as [A1 A2 A3 A4 A5 A6 A7]. pose proof (TableProofs.Forall2_length _ _ _ I) as L. split.
  - intros E. apply A1. rewrite E in L. now destruct cols.
  - now rewrite <- L.
  - now rewrite (same_map ci_name _ _ I).
  - rewrite <- Forall_map with (f := ci_name) (P := fun n => n <> []) in *. now rewrite (same_map ci_name _ _ I).
  - apply Forall_forall. intros i Hi. destruct (In_nth_error _ _ Hi) as (k & Ek). destruct (nth_error cols k) as [ci|] eqn:Ec; [|apply nth_error_None in Ec; rewrite L in Ec; apply nth_error_None in Ec; congruence].
    destruct (Forall2_at _ _ _ _ _ _ I Ec Ek) as (d & -> & D1 & D2). rewrite Forall_forall in Htypes. destruct (Htypes ci (nth_error_In _ _ Ec)) as (T & _).
    unfold known_type. cbn [wide ci_type ci_size]. destruct (Z.eq_dec (ci_type ci) ty_STRING) as [Q|Q].
    + right. split; [exact Q|]. exists d. lia.
    + left. rewrite (D2 Q). split; [tauto|reflexivity].
  - apply Forall_forall. intros i Hi. destruct (In_nth_error _ _ Hi) as (k & Ek). destruct (nth_error cols k) as [ci|] eqn:Ec; [|apply nth_error_None in Ec; rewrite L in Ec; apply nth_error_None in Ec; congruence].
    destruct (Forall2_at _ _ _ _ _ _ I Ec Ek) as (d & -> & _). rewrite Forall_forall in A6. exact (A6 ci (nth_error_In _ _ Ec)).
  - exact A7.
Qed.

Lemma columns_copyable cs : Forall2 like cols cs -> Forall copyable cs.
Proof using All.
  intros F. apply Forall_forall. intros c Hc. destruct (In_nth_error _ _ Hc) as (k & Ek). destruct (nth_error cols k) as [ci|] eqn:Ec; [|apply nth_error_None in Ec; rewrite (TableProofs.Forall2_length _ _ _ F) in Ec; apply nth_error_None in Ec; congruence].
  assert (L : like ci c) by (eapply Forall2_at; eauto). destruct L as [(k0 & K0 & K1) B C D E _ One]. split.
  - intros _. now rewrite D, E, !map_length.
  - intros Ch. rewrite Forall_forall in Htypes. destruct (Htypes ci (nth_error_In _ _ Ec)) as (Ty & _). unfold working_codec in K0. rewrite Hiad in K0.
    destruct Ty as [[T|T]|[[T|T]|T]]; rewrite T in *; cbn in K0.
    all: try (injection K0 as <-; cbn in K1; rewrite One in K1 by discriminate; cbn in K1; injection K1 as K1; rewrite <- K1 in *; discriminate).
    + injection K0 as <-. cbn in K1. injection K1 as K1. rewrite <- K1. split; reflexivity.
Qed.

Lemma columns_small cs : Forall2 like cols cs -> small (Z.of_nat N) (map info cs) [].
Proof using All.
  intros F. pose proof (infos cs F) as I. destruct Hsmall as (S1 & S2 & S3). unfold small.
  assert (I' : Forall2 (fun ci i => ci_name i = ci_name ci /\ ci_bits i = ci_bits ci /\ 0 <= ci_size i <= ci_size (widest W ci)) cols (map info cs)).
  { apply Forall2_by_nth; [apply (TableProofs.Forall2_length _ _ _ I)|]. intros k ci i E1 E2. destruct (Forall2_at _ _ _ _ _ _ I E1 E2) as (d & -> & D1 & D2).
    cbn [wide widest ci_name ci_bits ci_size]. rewrite Forall_forall in Htypes. destruct (Htypes ci (nth_error_In _ _ E1)) as (_ & Hs).
    split; [reflexivity|]. split; [reflexivity|]. destruct (Z.eqb_spec (ci_type ci) ty_STRING) as [Q|Q]; [lia|]. rewrite (D2 Q). lia. }
  split; [exact S1|]. rewrite sum_map in S2 |- *. rewrite total_map in S2, S3. split.
  - assert (total ci_size (map info cs) <= total (fun a => ci_size (widest W a)) cols) by (eapply sum_le; [exact I'|cbn beta; intros; lia]). nia.
  - eapply Z.le_lt_trans; [|exact S3]. apply Z.add_le_mono_l. eapply sum_le; [exact I'|]. cbn beta. intros a b (E1 & E2 & E3). rewrite E1, E2.
    change (ci_name (widest W a)) with (ci_name a). change (ci_bits (widest W a)) with (ci_bits a). nia.
Qed.

Lemma cell_ordinary ci c v cell : In ci cols -> like ci c -> importable (ci_type ci) v -> sized c cell -> stored (ci_type ci) v cell -> ordinary st (info c) cell.
Proof using All.
  intros Hin L Im (S1 & S2) St. rewrite (info_like ci c Hin L). pose proof (li_size _ _ _ _ L) as D1. pose proof (li_one _ _ _ _ L) as D2.
  assert (Tx : ci_type ci = ty_STRING -> ordinary st (wide ci (dsize c)) cell) by (intros T; apply (or_string _ _ (dsize c)); auto; lia).
  assert (One : ci_type ci <> ty_STRING -> ci_size (wide ci (dsize c)) = 8) by (intros Q; cbn [wide ci_size]; rewrite (D2 Q); reflexivity).
  assert (Hf : false = negb (iad st)) by now rewrite Hiad.
  destruct St as [Nu T ->|Nu T ->|Nu T E|n Nu T E ->|x Nu T E ->|x Nu T E ->|Nu T E]; auto.
  - rewrite Hf. apply or_int; [exact T|apply One; destruct T as [-> | ->]; discriminate|unfold int32, MDI; lia].
  - destruct T as [T|T].
    + apply or_real; [exact T|apply One; rewrite T; discriminate|split; vm_compute; auto; split; discriminate || reflexivity|reflexivity|vm_compute; reflexivity|vm_compute; reflexivity].
    + apply or_double; [exact T|apply One; rewrite T; discriminate|split; vm_compute; auto; split; discriminate || reflexivity|reflexivity|discriminate].
  - rewrite Hf. apply or_int; [exact T|apply One; destruct T as [-> | ->]; discriminate|]. destruct Im as [Q _|m _ _ E' I|? _ T' ? ? ? ? ?|? _ T' ? ? ? ?|_ T' ? ?].
    + contradiction.
    + assert (n = m) by congruence. now subst.
    + destruct T as [T|T]; rewrite T in T'; discriminate T'.
    + destruct T as [T|T]; rewrite T in T'; discriminate T'.
    + destruct T as [T|T]; rewrite T in T'; discriminate T'.
  - destruct Im as [Q _|m _ T' E' I|y _ T' E' B1 B2 B3 B4|? _ T' ? ? ? ?|_ T' ? ?].
    + contradiction.
    + destruct T' as [T'|T']; rewrite T in T'; discriminate T'.
    + assert (x = y) by congruence. subst. apply or_real; auto.
    + rewrite T in T'. discriminate T'.
    + rewrite T in T'. discriminate T'.
  - destruct Im as [Q _|m _ T' E' I|y _ T' E' B1 B2 B3 B4|y _ T' E' B1 B2 B3|_ T' ? ?].
    + contradiction.
    + destruct T' as [T'|T']; rewrite T in T'; discriminate T'.
    + rewrite T in T'. discriminate T'.
    + assert (x = y) by congruence. subst. apply or_double; auto.
    + rewrite T in T'. discriminate T'.
Qed.

Section Run.
Variable vss : list (list (list Z)).
Variable rows : list arow.
Hypothesis Hrows : Forall2 row_stored vss rows.
Hypothesis Himp : Forall (Forall2 (fun ci v => importable (ci_type ci) v) cols) vss.

Lemma row_like r : In r rows -> Forall2 like cols (fst r).
Proof using All. intros H. destruct (In_nth_error _ _ H) as (k & Ek). destruct (nth_error vss k) as [vs|] eqn:Ev; [|apply nth_error_None in Ev; rewrite (TableProofs.Forall2_length _ _ _ Hrows) in Ev; apply nth_error_None in Ev; congruence].
  assert (Q : row_stored vs r) by (eapply Forall2_at; eauto). apply Q. Qed.

Lemma rows_ok : rows_copyable st N [] rows.
Proof using All.
  apply C49_ordinary.
  - intros cs Hc. apply in_map_iff in Hc as (r & <- & Hr). pose proof (row_like r Hr) as L. split; [now apply columns_writable|]. split; [now apply columns_copyable|now apply columns_small].
  - intros cs row Hr. destruct (In_nth_error _ _ Hr) as (k & Ek). destruct (nth_error vss k) as [vs|] eqn:Ev; [|apply nth_error_None in Ev; rewrite (TableProofs.Forall2_length _ _ _ Hrows) in Ev; apply nth_error_None in Ev; congruence].
    assert (Q : row_stored vs (cs, row)) by (eapply Forall2_at; eauto). destruct Q as (Q1 & Q2 & Q3). cbn [fst snd] in *.
    rewrite Forall_forall in Himp. pose proof (Himp vs (nth_error_In _ _ Ev)) as Iv.
    apply Forall2_by_nth; [rewrite map_length; apply (TableProofs.Forall2_length _ _ _ Q2)|]. intros j i cell Ei Ec. rewrite nth_error_map in Ei. destruct (nth_error cs j) as [c|] eqn:Ej; [|discriminate].
    assert (i = info c) by (cbn in Ei; congruence). subst i. destruct (nth_error cols j) as [ci|] eqn:Eci; [|apply nth_error_None in Eci; rewrite (TableProofs.Forall2_length _ _ _ Q1) in Eci; apply nth_error_None in Eci; congruence].
    destruct (nth_error vs j) as [v|] eqn:Evj; [|apply nth_error_None in Evj; rewrite <- (TableProofs.Forall2_length _ _ _ Iv) in Evj; apply nth_error_None in Evj; congruence].
    destruct (Q3 j v ci Evj Eci) as (cell' & C1 & C2). assert (cell' = cell) by congruence. subst cell'.
    apply (cell_ordinary ci c v); auto.
    + eapply nth_error_In; eauto.
    + eapply Forall2_at; eauto.
    + eapply (Forall2_at (fun ci v => importable (ci_type ci) v)); eauto.
    + eapply Forall2_at; eauto.
Qed.

Local Notation session := (session st st' [] md5 N rows).
Local Notation text_loop := (text_loop st delim to_float to_double to_long unquote junk md5 N).

Lemma text_loop_ok : forall rest it w cs0 p done n, rows = done ++ rest -> at_rows it rest ->
  session w cs0 p done -> (t_end it = false -> t_new it = true \/ map shape (t_cols it) = map shape cs0) ->
  forall fuel, (length rest < fuel)%nat -> exists w' cs1 p', text_loop fuel w it n = Ok (w', n + len rest) /\ session w' cs1 p' rows.
Proof using All.
  induction rest as [|r rest IH]; intros it w cs0 p done n E A Se F fuel Hf.
  - destruct fuel as [|fuel]; [cbn in Hf; lia|]. cbn [CsvRows.at_rows] in A. cbn [Csv.text_loop]. rewrite A. exists w, cs0, p.
    rewrite app_nil_r in E. rewrite E at 2. split; [do 2 f_equal; unfold len; cbn; lia|exact Se].
  - destruct fuel as [|fuel]; [cbn in Hf; lia|]. cbn [length] in Hf. destruct A as (Ee & Er & it1 & A1 & A2 & A3). cbn [Csv.text_loop]. rewrite Ee.
    assert (Hin : In (t_cols it, t_last it) rows) by (rewrite E, <- Er; apply in_or_app; right; now left).
    destruct (row_step st st' [] md5 Hd N HN junk rows rows_ok w cs0 p done (t_new it) (t_cols it) (t_last it) Se Hin (F Ee)) as (w1 & cs1 & p1 & R1 & R2 & R3).
    rewrite R1. cbn [bind]. rewrite A1. cbn [bind]. rewrite <- Er in R2.
    destruct (IH it1 w1 cs1 p1 (done ++ [r]) (n + 1)) with (fuel := fuel) as (w' & cs2 & p2 & B1 & B2); auto.
    + now rewrite <- app_assoc.
    + intros Q. destruct (A3 Q) as [Z|Z]; [now left|]. right. rewrite Z. exact R3.
    + lia.
    + exists w', cs2, p2. split; [|exact B2]. rewrite B1. do 2 f_equal. unfold len. cbn [length]. lia.
Qed.

Lemma import_core text it fuel : rows <> [] -> open_text st delim to_float to_double to_long unquote junk text = Ok it -> at_rows it rows -> (length rows < fuel)%nat ->
  exists file r1, import_text st delim to_float to_double to_long unquote junk md5 N fuel text = Ok (file, len rows) /\
    frames_hold st st' [] md5 file r1 /\ Forall2 (matched rows) rows r1.
Proof using All.
  intros Hne O A Hf. unfold import_text. rewrite O. cbn [bind].
  assert (Hin : In (t_cols it) (map fst rows) /\ t_end it = false).
  { destruct rows as [|r rest]; [congruence|]. destruct A as (A0 & -> & _). split; [now left|exact A0]. }
  destruct Hin as (Hin & Ee).
  destruct (start_ok st [] N rows rows_ok (new_writer []) (t_cols it) Hin eq_refl) as (w & G1 & G2 & base & G3 & G4 & G5).
  rewrite G1. cbn [bind]. cbn [new_writer w_out] in G2, G5.
  assert (Se : session (write_header w) (t_cols it) [] []).
  { split; auto.
    - exists base. rewrite G2. auto.
    - intros ? [].
    - exists []. rewrite G2. split; [apply hold_nil|constructor]. }
  destruct (text_loop_ok rows it (write_header w) (t_cols it) [] [] 0 eq_refl A Se) with (fuel := fuel) as (w1 & cs1 & p1 & L1 & [S1 (base1 & B1 & B2 & B3) S3 S4 (r1 & D1 & D2)]); auto.
  rewrite L1. cbn [bind]. destruct (known st [] N rows rows_ok cs1 S1) as (_ & _ & W1).
  destruct (session_flush st st' [] md5 Hd N HN (map info cs1) base1 W1 B1 w1 p1 (w_out w1) B3) as (w2 & D & F1 & F2 & F3); [lia|intros Hp; apply (part_ok st [] N rows rows_ok); auto; lia|].
  rewrite F1. cbn [bind]. unfold Writer.close. destruct F2 as [Q1 _ Q3 Q4 _ _ _]. rewrite Q1. unfold flush. rewrite Q1, Q3. cbn [assert bind].
  eexists (w_out w2), _. split; [reflexivity|]. split; [|exact D2]. rewrite Q4. now apply hold_app.
Qed.

Lemma cell_means ci v cell out : In ci cols -> importable (ci_type ci) v -> stored (ci_type ci) v cell -> same_value st st' (ci_type ci) cell out ->
  means (negb (iad st')) (ci_type ci) v out.
Proof using All.
  intros Hin Im Stc Sv. unfold same_value in Sv. rewrite Hiad in Sv. cbn [negb] in Sv.
  assert (M64 : is64 realMDI) by (split; [discriminate|reflexivity]).
  assert (Di : forall ty, int_type ty -> ty <> ty_REAL /\ ty <> ty_DOUBLE /\ ty <> ty_STRING) by (intros ty [-> | ->]; repeat split; discriminate).
  assert (Int : forall n, int32 n -> int_type (ci_type ci) -> cell = int_cell false n -> out = int_cell (negb (iad st')) n).
  { intros n Hn T ->. destruct (Di _ T) as (N1 & N2 & N3). destruct Sv as [(_ & m & _ & E1 & ->)|[(T' & _)|[(T' & _)|(T' & _)]]]; try contradiction.
    f_equal. apply int_cell_only; [exact Hn|congruence]. }
  assert (Re : forall x, is64 x -> ci_type ci = ty_REAL -> cell = le_bytes 8 x -> exists w, out = le_bytes 8 w /\ real_result x w).
  { intros x Hx T ->. destruct Sv as [(T' & _)|[(_ & v' & w & V1 & V2 & V3 & V4 & V5)|[(T' & _)|(T' & _)]]].
    - destruct (Di _ T') as (Q & _). contradiction.
    - exists w. split; [exact V4|]. assert (x = v') as ->; [|exact V5]. unfold is64 in *. rewrite <- (le_val_small 8 x) by lia. rewrite <- (le_val_small 8 v') by lia. now rewrite V3.
    - rewrite T in T'. discriminate T'.
    - rewrite T in T'. discriminate T'. }
  assert (Do : ci_type ci = ty_DOUBLE -> out = cell).
  { intros T. destruct Sv as [(T' & _)|[(T' & _)|[(T' & E)|(T' & _)]]]; [destruct (Di _ T') as (_ & Q & _); contradiction|rewrite T in T'; discriminate T'|exact E|rewrite T in T'; discriminate T']. }
  assert (Te : ci_type ci = ty_STRING -> until_nul out = until_nul cell).
  { intros T. destruct Sv as [(T' & _)|[(T' & _)|[(T' & E)|(T' & E)]]]; [destruct (Di _ T') as (_ & _ & Q); contradiction|rewrite T in T'; discriminate T'|rewrite T in T'; discriminate T'|exact E]. }
  destruct Stc as [Nu T E|Nu T E|Nu T E|n Nu T E C|x Nu T E C|x Nu T E C|Nu T E].
  - apply me_null_int; [exact Nu|exact T|]. apply Int; [unfold int32, MDI; lia|exact T|exact E].
  - apply me_null_real; auto. destruct T as [T|T]; [|rewrite (Do T); exact E].
    destruct (Re realMDI M64 T E) as (w & -> & R). unfold real_result in R. change (deq realMDI realMDI) with true in R. now rewrite R.
  - apply me_null_text; auto. now rewrite Te.
  - apply (me_int _ _ _ _ _ _ _ _ n); auto. apply Int; auto. destruct Im as [Q _|m _ _ E' I|? _ T' ? ? ? ? ?|? _ T' ? ? ? ?|_ T' ? ?]; [contradiction|assert (n = m) by congruence; now subst|..]; destruct (Di _ T) as (Q1 & Q2 & Q3); contradiction.
  - assert (Hx : is64 (f2d x)). { destruct Im as [Q _|m _ T' E' I|y _ T' E' B1 B2 B3 B4|? _ T' ? ? ? ?|_ T' ? ?]; [contradiction|destruct (Di _ T') as (Q1 & _); contradiction|assert (x = y) by congruence; subst; apply B1|rewrite T in T'; discriminate T'|rewrite T in T'; discriminate T']. }
    destruct (Re _ Hx T C) as (w & Ew & R). apply (me_real _ _ _ _ _ _ _ _ x w); auto.
  - apply (me_double _ _ _ _ _ _ _ _ x); auto. now rewrite (Do T).
  - apply me_text; auto. now rewrite Te.
Qed.
End Run.
End Import.

(** ** C45 *)

Lemma declared_types hs cols : Forall2 declares hs cols ->
  Forall (fun ci => (int_type (ci_type ci) \/ real_type (ci_type ci) \/ ci_type ci = ty_STRING) /\ ci_size ci = 8) cols /\
  Forall (fun ci => ci_type ci <> ty_BITFIELD -> ci_bits ci = []) cols.
Proof.
  induction 1 as [|f ci hs cols H _ (A & B)]; [split; constructor|]. split; constructor; auto.
  - split; [eapply declared_type; eauto|]. destruct H; assumption.
  - destruct H; [auto|contradiction].
Qed.

Lemma made_like st W cols cs : 1 <= W ->
  Forall (fun ci => (int_type (ci_type ci) \/ real_type (ci_type ci) \/ ci_type ci = ty_STRING) /\ ci_size ci = 8) cols ->
  iad st = true -> Forall2 (column_made st) cols cs -> Forall2 (like st W) cols cs.
Proof.
  intros HW T Hi. induction 1 as [|ci c cols cs (M1 & M2 & M3 & M4 & M5) _ IH]; constructor; inversion T as [|? ? (T1 & T2) T3]; subst; [|auto].
  assert (D : dsize c = 1 /\ set_data_size (col_coder c) 1 = Ok (col_coder c)).
  { unfold working_codec in M1. rewrite Hi in M1. unfold dsize. destruct T1 as [[T1|T1]|[[T1|T1]|T1]]; rewrite T1 in M1; cbn in M1; injection M1 as M1; rewrite <- M1; split; reflexivity. }
  destruct D as (D1 & D2). split; auto.
  - exists (col_coder c). rewrite D1. auto.
  - rewrite D1. lia.
Qed.

(** The value of each field, read back: [vs] are the texts of the fields of a line. *)
Definition imported (to_float to_double to_long : list Z -> outcome Z) (unquote : list Z -> list Z) (i64 : bool)
  (cols : list colinfo) (vs : list (list Z)) (r : arow) : Prop :=
  Forall2 described cols (fst r) /\ length (snd r) = length cols /\
  forall i ci v cell, nth_error cols i = Some ci -> nth_error vs i = Some v -> nth_error (snd r) i = Some cell ->
    means to_float to_double to_long unquote i64 (ci_type ci) v cell.

Lemma import_det st delim tf td tl uq junk md5 N a b text x y :
  import_text st delim tf td tl uq junk md5 N a text = Ok x -> import_text st delim tf td tl uq junk md5 N b text = Ok y -> x = y.
Proof.
  unfold import_text. destruct (open_text st delim tf td tl uq junk text) as [it| |]; cbn [bind]; try discriminate.
  destruct (pass1_init st (new_writer []) (t_cols it)) as [w| |]; cbn [bind]; try discriminate.
  assert (X : forall a b w it n x y, text_loop st delim tf td tl uq junk md5 N a w it n = Ok x -> text_loop st delim tf td tl uq junk md5 N b w it n = Ok y -> x = y).
  { clear. induction a as [|a IH]; intros [|b] w it n x y; cbn [text_loop]; try discriminate.
    destruct (t_end it); [congruence|]. destruct (pass1_row md5 st N [] w (t_new it) (t_cols it) (t_last it)) as [w1| |]; cbn [bind]; try discriminate.
    destruct (text_next delim tf td tl uq junk it) as [it1| |]; cbn [bind]; try discriminate. apply IH. }
  destruct (text_loop st delim tf td tl uq junk md5 N a (write_header w) it 0) as [x1| |] eqn:E1; cbn [bind]; try discriminate.
  destruct (text_loop st delim tf td tl uq junk md5 N b (write_header w) it 0) as [x2| |] eqn:E2; cbn [bind]; try discriminate.
  rewrite (X _ _ _ _ _ _ _ E1 E2). intros A B. congruence.
Qed.

(** The text of a table is imported as a file with one row per line, in order, in columns of
    the declared names, types and bitfield members, each cell holding the value its field is
    the text of; and the number of rows is returned. *)
Theorem C45_import : forall md5 st st' N delim to_float to_double to_long unquote junk W cols vss text,
  digest md5 -> (0 < N)%nat -> iad st = true -> long_strings st = false -> (forall n i, bytes_ok (junk n i)) ->
  1 <= W -> 8 * W < 2 ^ 31 ->
  table_text delim cols vss text -> vss <> [] ->
  writable_columns cols [] -> small (Z.of_nat N) (map (widest W) cols) [] ->
  Forall (Forall2 (fun ci v => importable to_float to_double to_long unquote W (ci_type ci) v) cols) vss ->
  exists file,
    (forall fuel, (length vss < fuel)%nat -> import_text st delim to_float to_double to_long unquote junk md5 N fuel text = Ok (file, len vss)) /\
    forall junk', exists rows, (forall f, (length vss < f)%nat -> file_rows md5 st' junk' f file = (rows, Clean)) /\
      Forall2 (imported to_float to_double to_long unquote (negb (iad st')) cols) vss rows.
Proof.
  intros md5 st st' N delim tf td tl uq junk W cols vss text Hd HN Hi Hl Hj HW HW' [Hdel (header & lines & hs & fss & T & L & D & Ls & Hs)] Hne Wc Sm Im.
  destruct (declared_types hs cols D) as (Ty & Bi).
  destruct (parse_header_ok st delim junk cols hs header lines text Hdel T L D) as (it & P1 & P2 & P3 & P4 & P5).
  pose proof (made_like st W cols (t_cols it) HW Ty Hi P2) as Lk.
  assert (Tk : tok st W cols it).
  { split; [exact Lk|]. rewrite P3. apply Forall2_by_nth; [now rewrite (initial_length st Hi delim Hdel tf td tl uq junk Hj W HW cols Ty)|].
    intros j c cell Ec Ecell. rewrite (initial_nth st Hi delim Hdel tf td tl uq junk Hj W HW cols Ty _ _ _ _ _ Ec) in Ecell.
    assert (cell = initial_cell junk 0 (0 + j) c) by congruence. subst cell. apply (initial_sized st Hi delim Hdel tf td tl uq junk Hj W HW cols Ty).
    destruct (nth_error cols j) as [ci|] eqn:Ej; [|apply nth_error_None in Ej; rewrite (TableProofs.Forall2_length _ _ _ Lk) in Ej; apply nth_error_None in Ej; congruence].
    apply (li_size st W ci c). eapply Forall2_at; eauto. }
  destruct (trace_ok st Hi delim Hdel tf td tl uq junk Hj W HW cols Ty lines fss vss it Tk P4 P5 Ls Hs Im) as (it1 & rows & Q1 & Q2 & Q3 & _).
  assert (O : open_text st delim tf td tl uq junk text = Ok it1) by (unfold open_text; rewrite P1; exact Q1).
  pose proof (TableProofs.Forall2_length _ _ _ Q3) as Ln.
  assert (rows <> []) as Hr by (intros ->; destruct vss; [congruence|discriminate]).
  pose proof (import_core st st' Hi Hl delim Hdel tf td tl uq junk Hj W HW HW' cols Ty Bi Wc md5 Hd N HN Sm vss rows Q3 Im text it1) as Core.
  destruct (Core (S (length rows)) Hr O Q2 (Nat.lt_succ_diag_r _)) as (file & r1 & K & (fs & bs & -> & F & <-) & M).
  exists (concat bs). split.
  - intros fuel Hf. rewrite Ln in Hf. destruct (Core fuel Hr O Q2 Hf) as (file' & _ & K' & _). rewrite K'. pose proof (import_det _ _ _ _ _ _ _ _ _ _ _ _ _ _ K K') as E.
    rewrite <- E. unfold len. now rewrite Ln.
  - intros junk'. destruct (read_file st st' [] md5 Hd junk' fs bs F) as (rows' & C & RR).
    assert (Lr : length (flat fs) = length vss) by (rewrite Ln; symmetry; apply (TableProofs.Forall2_length _ _ _ M)).
    exists rows'. split; [now rewrite <- Lr|]. apply Forall2_by_nth; [rewrite <- Lr; apply (TableProofs.Forall2_length _ _ _ C)|].
    intros k vs out Ev Eo.
    destruct (nth_error rows k) as [r|] eqn:Er; [|apply nth_error_None in Er; rewrite <- Ln in Er; apply nth_error_None in Er; congruence].
    destruct (nth_error (flat fs) k) as [f|] eqn:Ef; [|apply nth_error_None in Ef; rewrite Lr in Ef; apply nth_error_None in Ef; congruence].
    assert (Mr : matched rows r f) by (eapply Forall2_at; eauto). destruct Mr as (M1 & cs & M2 & M3 & M4).
    assert (Cb : comes_back st st' f out) by (eapply Forall2_at; eauto). destruct Cb as (C1 & C2). rewrite M1, M2 in *.
    assert (Rs : row_stored st tf td tl uq W cols vs r) by (eapply Forall2_at; eauto). destruct Rs as (R1 & R2 & R3).
    rewrite Forall_forall in Im. pose proof (Im vs (nth_error_In _ _ Ev)) as Iv.
    assert (Lcs : Forall2 (like st W) cols cs).
    { apply in_map_iff in M4 as (r' & <- & Hr'). destruct (In_nth_error _ _ Hr') as (k' & Ek'). destruct (nth_error vss k') as [vs'|] eqn:Ev'; [|apply nth_error_None in Ev'; rewrite Ln in Ev'; apply nth_error_None in Ev'; congruence].
      assert (Rs : row_stored st tf td tl uq W cols vs' r') by (eapply Forall2_at; eauto). apply Rs. }
    pose proof (TableProofs.Forall2_length _ _ _ Lcs) as Lc.
    assert (Inf : forall j ci c, nth_error cols j = Some ci -> nth_error cs j = Some c -> info c = wide ci (dsize c)).
    { intros j ci c E1 E2. apply (info_like st st' Hi Hl delim Hdel tf td tl uq junk Hj W HW HW' cols Ty Bi Wc md5 Hd N HN Sm); [eapply nth_error_In; eauto|eapply Forall2_at; eauto]. }
    split; [|split].
    + apply Forall2_by_nth; [rewrite Lc, <- (map_length info); apply (TableProofs.Forall2_length _ _ _ C1)|]. intros j ci d E1 E2.
      destruct (nth_error cs j) as [c|] eqn:Ec; [|apply nth_error_None in Ec; rewrite <- Lc in Ec; apply nth_error_None in Ec; congruence].
      assert (Dd : described (info c) d) by (eapply Forall2_at; [exact C1|rewrite nth_error_map, Ec; reflexivity|exact E2]). rewrite (Inf j ci c E1 Ec) in Dd. exact Dd.
    + destruct C2 as (_ & C2 & _). rewrite C2, map_length. auto.
    + intros j ci v cell E1 E2 E3. destruct C2 as (C2 & C3 & C4).
      destruct (nth_error cs j) as [c|] eqn:Ec; [|apply nth_error_None in Ec; rewrite <- Lc in Ec; apply nth_error_None in Ec; congruence].
      destruct (R3 j v ci E2 E1) as (x & X1 & X2).
      assert (Sv : same_value st st' (ci_type ci) x cell).
      { specialize (C4 j (info c) x cell). rewrite nth_error_map, Ec in C4. specialize (C4 eq_refl X1 E3). rewrite (Inf j ci c E1 Ec) in C4. exact C4. }
      eapply (cell_means st st' Hi Hl delim Hdel tf td tl uq junk Hj W HW HW' cols Ty Bi Wc md5 Hd N HN Sm vss rows Q3); eauto.
      * apply Forall_forall. exact Im.
      * eapply nth_error_In; eauto.
      * eapply (Forall2_at (fun ci v => importable tf td tl uq W (ci_type ci) v)); eauto.
Qed.
Print Assumptions C45_import.
