(** C51: counting rows, listing blocks and cutting a file in chunks from the headers alone. *)
From Coq Require Import String.
From Verif Require Import Spec Base Fp Stream StreamProofs StreamLocal Codec Meta Header Encoder Table Reader ReadSpec
  ReaderProofs P_Frame P_Reader Scan ScanSpec Through.
Open Scope Z_scope.

(** ** The loop sees the tables that a sequential read finds *)

Section Loop.
Variable md5 : list Z -> list Z.
Variable st : settings.
Variable est : Z.
Variable file : list Z.

Lemma read_tables_extends : forall fuel ts tables e, read_tables md5 st est file fuel ts = (tables, e) ->
  exists more, tables = ts ++ more.
Proof.
  induction fuel as [|fuel IH]; intros ts tables e H; cbn [read_tables] in H.
  { injection H as <- _. exists []. now rewrite app_nil_r. }
  unfold ensure_table in H.
  destruct (Z.leb_spec 0 (Z.of_nat (List.length ts))); [|lia].
  rewrite Z.leb_refl, Z.eqb_refl in H. cbn [assert bind] in H.
  destruct ((next_position ts <=? est) || (est =? 0)); cbn [assert bind] in H; [|injection H as <- _; exists []; now rewrite app_nil_r].
  destruct (next_position ts <? 0); cbn [bind] in H; [injection H as <- _; exists []; now rewrite app_nil_r|].
  destruct (read_table md5 st est file (next_position ts)) as [[t|]|x|]; cbn [bind] in H;
    try (injection H as <- _; exists []; now rewrite app_nil_r).
  apply IH in H as [more ->]. exists (t :: more). now rewrite <- app_assoc.
Qed.

Lemma ensure_new ts : match ensure_table md5 st est file ts (Z.of_nat (List.length ts)) with
  | Ok (true, ts') => exists t, ts' = ts ++ [t] | Ok (false, ts') => ts' = ts | _ => True end.
Proof.
  unfold ensure_table.
  destruct (Z.leb_spec 0 (Z.of_nat (List.length ts))); [|lia].
  rewrite Z.leb_refl, Z.eqb_refl. cbn [assert bind].
  destruct ((next_position ts <=? est) || (est =? 0)); cbn [assert bind]; [|exact I].
  destruct (next_position ts <? 0); cbn [bind]; [exact I|].
  destruct (read_table md5 st est file (next_position ts)) as [[t|]|x|]; cbn [bind]; eauto.
Qed.

Definition finish {A} (e : ending) (a : A) : outcome A :=
  match e with Clean => Ok a | Failed x => Throw x | Undefined => UB | OutOfFuel => Throw SeriousBug end.

Lemma scan_from_read {A} (step : A -> table -> A) : forall fuel ts t acc tables e,
  read_tables md5 st est file fuel (ts ++ [t]) = (tables, e) -> e <> OutOfFuel ->
  scan_from md5 st est file step (S fuel) (ts ++ [t]) (Z.of_nat (List.length ts)) acc =
    finish e (fold_left step (skipn (List.length ts) tables) acc).
Proof.
  induction fuel as [|fuel IH]; intros ts t acc tables e H Ne; cbn [read_tables] in H.
  { injection H as _ <-. now elim Ne. }
  set (f := S fuel) in *. cbn [scan_from].
  destruct (Z.eqb_spec (Z.of_nat (List.length ts)) (-1)); [lia|].
  unfold iter_get. destruct (Z.ltb_spec (Z.of_nat (List.length ts)) 0); [lia|]. rewrite Nat2Z.id.
  rewrite nth_error_app2, Nat.sub_diag by lia. cbn [nth_error bind].
  unfold iter_next. replace (Z.of_nat (List.length ts) + 1) with (Z.of_nat (List.length (ts ++ [t]))) by (rewrite app_length; cbn; lia).
  pose proof (ensure_new (ts ++ [t])) as N.
  assert (Sk : skipn (List.length ts) (ts ++ [t]) = [t]) by (now rewrite skipn_app, skipn_all, Nat.sub_diag).
  destruct (ensure_table md5 st est file (ts ++ [t]) (Z.of_nat (List.length (ts ++ [t])))) as [[[|] ts']|x|]; cbn [bind].
  - destruct N as [t' ->]. unfold f. rewrite (IH (ts ++ [t]) t' _ tables e H Ne). f_equal.
    destruct (read_tables_extends _ _ _ _ H) as [more ->]. rewrite <- !app_assoc.
    rewrite !skipn_app, skipn_all, Nat.sub_diag. cbn [skipn app]. rewrite app_length. cbn [List.length].
    rewrite skipn_all2 by lia. cbn [app]. replace (List.length ts + 1 - List.length ts)%nat with 1%nat by lia. reflexivity.
  - injection H as <- <-. unfold f. cbn [scan_from]. cbn [finish]. rewrite Sk. reflexivity.
  - injection H as <- <-. reflexivity.
  - injection H as <- <-. reflexivity.
Qed.

Lemma scan_read {A} (step : A -> table -> A) fuel acc tables e :
  read_tables md5 st est file fuel [] = (tables, e) -> e <> OutOfFuel ->
  scan md5 st est file step fuel acc = finish e (fold_left step tables acc).
Proof.
  intros H Ne. destruct fuel as [|fuel]; cbn [read_tables] in H.
  { injection H as _ <-. now elim Ne. }
  unfold scan, open_reader. change (Z.of_nat (List.length (@nil table))) with 0 in H. pose proof (ensure_new []) as N.
  change (Z.of_nat (List.length (@nil table))) with 0 in N.
  destruct (ensure_table md5 st est file [] 0) as [[[|] ts']|x|]; cbn [bind r_tables r_pos].
  - destruct N as [t ->]. cbn [app] in *. exact (scan_from_read step fuel [] t acc tables e H Ne).
  - injection H as <- <-. reflexivity.
  - injection H as <- <-. reflexivity.
  - injection H as <- <-. reflexivity.
Qed.
End Loop.

(** ** Files made of frames *)

Section Made.
Variable md5 : list Z -> list Z.
Variable st : settings.

Lemma made_scan {A} (step : A -> table -> A) l est fuel acc : made_of md5 st l -> estimate est (bytes_of l) ->
  (List.length l < fuel)%nat -> scan md5 st est (bytes_of l) step fuel acc = Ok (fold_left step (place 0 l) acc).
Proof.
  intros G He Hf. apply (scan_read md5 st est (bytes_of l) step fuel acc (place 0 l) Clean); [|discriminate].
  change (@nil table) with (firstn 0 (place 0 l)). unfold bytes_of.
  apply (read_tables_prefix md5 st l est G); try lia. now apply estimate_ok.
Qed.

Lemma made_frames l : made_of md5 st l -> frames md5 st (map fst l).
Proof. unfold made_of, frames. intros H. induction H as [|[f t] l F _ IH]; constructor; eauto. Qed.

(** With a handle that knows its size: the frames that are whole are seen, then the cut. *)
Lemma cut_scan {A} (step : A -> table -> A) l k acc : made_of md5 st l -> (k <= List.length (bytes_of l))%nat ->
  exists i, whole (map fst l) k i /\
   (Z.of_nat k = len (bytes_of (firstn i l)) -> forall fuel, (List.length l < fuel)%nat ->
      scan md5 st (Z.of_nat k) (firstn k (bytes_of l)) step fuel acc = Ok (fold_left step (place 0 (firstn i l)) acc)) /\
   (Z.of_nat k <> len (bytes_of (firstn i l)) -> forall fuel, (List.length l < fuel)%nat ->
      scan md5 st (Z.of_nat k) (firstn k (bytes_of l)) step fuel acc = Throw Incomplete).
Proof.
  intros G Hk. destruct (C06_tables md5 st (map fst l) k (made_frames l G) Hk) as (i & tables & e & W & T & R & E1 & E2).
  cbv zeta in R. exists i. split; [assumption|]. fold (bytes_of l) in R. rewrite firstn_map in E1, E2. fold (bytes_of (firstn i l)) in E1, E2.
  unfold len in R. rewrite firstn_length, Nat.min_l in R by exact Hk. rewrite map_length in R. split; intros K fuel Hf.
  - rewrite (scan_read md5 st _ _ step fuel acc tables e (R fuel Hf)) by (rewrite E1 by exact K; discriminate).
    rewrite E1 by exact K. cbn [finish]. do 2 f_equal. destruct W as (W & _). rewrite map_length in W.
    assert (Gi : made_of md5 st (firstn i l)).
    { unfold made_of in *. rewrite Forall_forall in *. intros x Hx. apply G. rewrite <- (firstn_skipn i l). apply in_or_app. now left. }
    pose proof (place_tables_of md5 st (firstn i l) Gi) as [L2 T2]. destruct T as [L1 T1]. rewrite firstn_map in L1, T1.
    apply nth_ext_error. intros j. destruct (nth_error (map fst (firstn i l)) j) as [f|] eqn:Ej.
    + destruct (T1 j f Ej) as (t1 & F1 & ->). destruct (T2 j f Ej) as (t2 & F2 & ->).
      destruct F1 as [F1 _], F2 as [F2 _]. congruence.
    + apply nth_error_None in Ej. rewrite (proj2 (nth_error_None tables j)) by lia. symmetry. apply nth_error_None. lia.
  - rewrite (scan_read md5 st _ _ step fuel acc tables e (R fuel Hf)) by (rewrite E2 by exact K; discriminate).
    now rewrite E2.
Qed.
End Made.

(** ** Counting *)

Lemma count_fold : forall l off n, 0 <= n < 2 ^ 64 ->
  fold_left (fun n t => (n + t_rows t) mod 2 ^ 64) (place off l) n = (n + total_rows l) mod 2 ^ 64.
Proof.
  induction l as [|[f t] l IH]; intros off n Hn; cbn [place fold_left total_rows].
  { rewrite Z.add_0_r, Z.mod_small; lia. }
  rewrite IH by (apply Z.mod_pos_bound; lia). cbn [moved t_rows]. rewrite Zplus_mod_idemp_l. f_equal. lia.
Qed.

Theorem C51_rows : forall md5 st l est, made_of md5 st l -> estimate est (bytes_of l) ->
  forall fuel, (List.length l < fuel)%nat -> row_count md5 st est (bytes_of l) fuel = Ok (total_rows l mod 2 ^ 64).
Proof.
  intros md5 st l est G He fuel Hf. unfold row_count. rewrite (made_scan md5 st) by assumption.
  rewrite count_fold by lia. reflexivity.
Qed.
Print Assumptions C51_rows.

(** A truncated file is counted exactly up to a frame boundary and refused elsewhere. *)
Theorem C51_cut : forall md5 st l k, made_of md5 st l -> (k <= List.length (bytes_of l))%nat ->
  exists i, whole (map fst l) k i /\ forall fuel, (List.length l < fuel)%nat ->
    (Z.of_nat k = len (bytes_of (firstn i l)) ->
       row_count md5 st (Z.of_nat k) (firstn k (bytes_of l)) fuel = Ok (total_rows (firstn i l) mod 2 ^ 64)) /\
    (Z.of_nat k <> len (bytes_of (firstn i l)) ->
       row_count md5 st (Z.of_nat k) (firstn k (bytes_of l)) fuel = Throw Incomplete /\
       offsets_of_blocks md5 st (Z.of_nat k) (firstn k (bytes_of l)) fuel = Throw Incomplete /\
       forall max, get_chunks md5 st (Z.of_nat k) (firstn k (bytes_of l)) max fuel = Throw Incomplete).
Proof.
  intros md5 st l k G Hk.
  destruct (cut_scan md5 st (fun n t => (n + t_rows t) mod 2 ^ 64) l k 0 G Hk) as (i & W & C1 & C2).
  exists i. split; [assumption|]. intros fuel Hf. split; intros K.
  - unfold row_count. rewrite (C1 K fuel Hf), count_fold by lia. reflexivity.
  - split; [exact (C2 K fuel Hf)|]. 
    assert (Same : forall i', whole (map fst l) k i' -> len (bytes_of (firstn i' l)) = Z.of_nat k -> False).
    { intros i' W' E. apply K. rewrite <- E. f_equal. f_equal. f_equal.
      destruct W as (W1 & W2 & W3), W' as (V1 & V2 & V3). rewrite !firstn_map in *. fold (bytes_of (firstn i l)) in W2.
      fold (bytes_of (firstn i' l)) in V2. fold (bytes_of (firstn (S i) l)) in W3. fold (bytes_of (firstn (S i') l)) in V3.
      assert (Mono : forall a b, (a <= b)%nat -> len (bytes_of (firstn a l)) <= len (bytes_of (firstn b l))).
      { intros a b Hab. rewrite <- (firstn_skipn a (firstn b l)). rewrite firstn_firstn, Nat.min_l by lia.
        unfold bytes_of, len. rewrite map_app, concat_app, app_length. lia. }
      destruct (Nat.lt_trichotomy i' i) as [L|[L|L]]; [|now rewrite L|].
      - destruct V3 as [V3|V3]; [lia|]. pose proof (Mono (S i') i L). lia.
      - destruct W3 as [W3|W3]; [lia|]. pose proof (Mono (S i) i' L). lia. }
    split.
    + destruct (cut_scan md5 st (fun r t => r ++ [(t_start t, t_next t - t_start t)]) l k [] G Hk) as (i' & W' & _ & D2).
      apply D2; [|assumption]. intros E. apply (Same i' W'). now rewrite E.
    + intros max. unfold get_chunks.
      destruct (cut_scan md5 st (chunk_step max) l k {| ch_done := []; ch_offset := 0; ch_length := 0; ch_size := 0 |} G Hk) as (i' & W' & _ & D2).
      rewrite D2; [reflexivity| |assumption]. intros E. apply (Same i' W'). now rewrite E.
Qed.
Print Assumptions C51_cut.

(** The counts of several files add up. *)
Theorem C51_files : forall md5 st ls fuel, Forall (made_of md5 st) ls -> Forall (fun l => (List.length l < fuel)%nat) ls ->
  count_files md5 st (map bytes_of ls) fuel 0 = Ok (total_rows (concat ls) mod 2 ^ 64).
Proof.
  intros md5 st ls fuel G Hf.
  assert (X : forall n, 0 <= n < 2 ^ 64 -> count_files md5 st (map bytes_of ls) fuel n = Ok ((n + total_rows (concat ls)) mod 2 ^ 64)).
  { induction ls as [|l ls IH]; intros n Hn; cbn [map count_files concat].
    - cbn [total_rows]. rewrite Z.add_0_r, Z.mod_small by lia. reflexivity.
    - inversion G; subst. inversion Hf; subst. rewrite (C51_rows md5 st l) by (assumption || now right). cbn [bind].
      rewrite IH by (assumption || apply Z.mod_pos_bound; lia). f_equal.
      assert (A : forall a b, total_rows (a ++ b) = total_rows a + total_rows b).
      { clear. induction a as [|[f t] a IH]; intros b; cbn [app total_rows]; [lia|]. rewrite IH. lia. }
      rewrite A.
      replace (n + (total_rows l + total_rows (concat ls))) with ((n + total_rows l) + total_rows (concat ls)) by lia.
      rewrite <- (Zplus_mod_idemp_l (n + total_rows l)). rewrite <- (Zplus_mod_idemp_r (total_rows l) n).
      rewrite Zplus_mod_idemp_l. reflexivity. }
  apply (X 0). lia.
Qed.
Print Assumptions C51_files.

(** What was encoded is what is counted. *)
Theorem C51_encoded : forall md5 st st' o version fs ns, digest md5 ->
  Forall2 (fun f n => exists cols data pr, valid_table st version n cols data pr /\ encode_frame md5 version st o cols data pr = Ok f) fs ns ->
  forall fuel, (List.length fs < fuel)%nat -> Z.of_nat (fold_right Nat.add 0%nat ns) < 2 ^ 64 ->
  row_count md5 st' (len (concat fs)) (concat fs) fuel = Ok (Z.of_nat (fold_right Nat.add 0%nat ns)).
Proof.
  intros md5 st st' o version fs ns Hd F fuel Hf Hn.
  assert (X : exists l, made_of md5 st' l /\ map fst l = fs /\ total_rows l = Z.of_nat (fold_right Nat.add 0%nat ns)).
  { clear Hf Hn. induction F as [|f n fs ns (cols & data & pr & V & E) _ (l & G & M & T)].
    - exists []. repeat split. constructor.
    - destruct (C27_encoded md5 st st' o version n cols data pr f Hd V E) as (t & Ft & R).
      exists ((f, t) :: l). split; [constructor; assumption|]. split; [cbn; now rewrite M|].
      cbn [total_rows fold_right]. lia. }
  destruct X as (l & G & M & T).
  assert (Ef : concat fs = bytes_of l) by (unfold bytes_of; now rewrite M). rewrite Ef.
  rewrite (C51_rows md5 st' l (len (bytes_of l)) G (or_intror eq_refl)) by (rewrite <- (map_length fst), M; exact Hf).
  rewrite T, Z.mod_small by lia. reflexivity.
Qed.
Print Assumptions C51_encoded.

(** ** Blocks *)

Lemma made_first md5 st p l : made_of md5 st (p :: l) -> frame md5 st (fst p) (snd p) /\ made_of md5 st l.
Proof. intros H. now inversion H. Qed.

Lemma frame_ends md5 st f t : frame md5 st f t -> t_start t = 0 /\ t_next t = len f /\ 0 < len f.
Proof.
  intros F. pose proof (frame_nonempty md5 st f t F). destruct (frame_shape md5 st f t F) as (hb & body & h & _ & _ & _ & _ & _ & T).
  pose proof F as [_ Nx]. split; [now rewrite T|]. split; [exact Nx|]. unfold len. lia.
Qed.

Theorem C51_blocks : forall md5 st l est, made_of md5 st l -> estimate est (bytes_of l) ->
  forall fuel, (List.length l < fuel)%nat ->
  offsets_of_blocks md5 st est (bytes_of l) fuel = Ok (extents 0 (map (fun p => [p]) l)).
Proof.
  intros md5 st l est G He fuel Hf. unfold offsets_of_blocks. rewrite (made_scan md5 st) by assumption. f_equal.
  clear He Hf.
  assert (X : forall off acc, fold_left (fun r t => r ++ [(t_start t, t_next t - t_start t)]) (place off l) acc =
              acc ++ extents off (map (fun p => [p]) l)); [|now rewrite X].
  induction l as [|[f t] l IH]; intros off acc; cbn [place fold_left map extents].
  { now rewrite app_nil_r. }
  apply made_first in G as [F G]. cbn [fst snd] in F. destruct (frame_ends _ _ _ _ F) as (S0 & N0 & _).
  rewrite (IH G). rewrite <- app_assoc. cbn [app moved t_start t_next]. rewrite S0, N0.
  unfold bytes_of. cbn [map fst concat]. rewrite app_nil_r. rewrite Z.add_0_l. replace (len f + off - off) with (len f) by lia. reflexivity.
Qed.
Print Assumptions C51_blocks.

(** Each extent is exactly the bytes of its group: the part of the file a reader opened on
    it sees is a file made of those frames. *)
Lemma extents_at groups : forall off k g, nth_error groups k = Some g ->
  nth_error (extents off groups) k = Some (off + len (bytes_of (concat (firstn k groups))), len (bytes_of g)).
Proof.
  induction groups as [|x groups IH]; intros off [|k] g E; cbn [nth_error] in E; try discriminate; cbn [extents nth_error firstn concat].
  - injection E as ->. unfold bytes_of at 2. cbn. now rewrite Z.add_0_r.
  - rewrite (IH _ k g E). unfold bytes_of, len. rewrite map_app, concat_app, app_length, Nat2Z.inj_add. do 2 f_equal. lia.
Qed.

Lemma extents_length groups : forall off, List.length (extents off groups) = List.length groups.
Proof. induction groups; intros off; cbn [extents List.length]; [reflexivity|now rewrite IHgroups]. Qed.

Theorem C51_parts : forall groups k o n, nth_error (extents 0 groups) k = Some (o, n) ->
  exists g, nth_error groups k = Some g /\ o = len (bytes_of (concat (firstn k groups))) /\
    firstn (Z.to_nat n) (skipn (Z.to_nat o) (bytes_of (concat groups))) = bytes_of g.
Proof.
  intros groups k o n E. destruct (nth_error groups k) as [g|] eqn:Eg.
  2:{ apply nth_error_None in Eg. rewrite <- (extents_length groups 0) in Eg. apply nth_error_None in Eg. congruence. }
  exists g. split; [reflexivity|]. rewrite (extents_at groups 0 k g Eg) in E. injection E as <- <-. split; [lia|].
  unfold len. rewrite !Nat2Z.id.
  assert (Sp : concat groups = concat (firstn k groups) ++ g ++ concat (skipn (S k) groups)).
  { rewrite <- (firstn_skipn k groups) at 1. rewrite concat_app. f_equal. clear -Eg. revert k Eg.
    induction groups as [|x groups IH]; intros [|k] E; try discriminate; cbn in *; [congruence|auto]. }
  rewrite Sp. unfold bytes_of. rewrite !map_app, !concat_app. rewrite skipn_app, skipn_all, Nat.sub_diag. cbn [skipn app].
  rewrite firstn_app, Nat.sub_diag, firstn_O, app_nil_r. apply firstn_all.
Qed.
Print Assumptions C51_parts.

(** ** Chunks *)

Section Chunks.
Variable md5 : list Z -> list Z.
Variable st : settings.
Variable max : Z.

(** The state after the frames [p]: closed groups, the open group [g], and whether the first
    table was too large. *)
Record chunks_inv (p : list (list Z * table)) (c : chunking) (groups : list (list (list Z * table))) (g : list (list Z * table)) : Prop := {
  ci_all : concat groups ++ g = p;
  ci_done : ch_done c = extents 0 groups;
  ci_off : ch_offset c = len (bytes_of (concat groups));
  ci_len : ch_length c = len (bytes_of g);
  ci_new : p <> [] -> g <> [];
  ci_tl : Forall (fun g => g <> []) (tl groups);
  ci_hd : forall gs, groups = [] :: gs -> exists f t p', p = (f, t) :: p' /\ max < expanded t;
  ci_size : 0 <= ch_size c < 2 ^ 64
}.

Lemma expanded_bound t : 0 <= expanded t < 2 ^ 64.
Proof. apply Z.mod_pos_bound. lia. Qed.

Lemma expanded_moved d t : expanded (moved d t) = expanded t.
Proof. reflexivity. Qed.

Lemma extents_snoc groups g : forall off, extents off (groups ++ [g]) =
  extents off groups ++ [(off + len (bytes_of (concat groups)), len (bytes_of g))].
Proof.
  induction groups as [|x groups IH]; intros off; cbn [app extents concat].
  - unfold bytes_of at 3. cbn. now rewrite Z.add_0_r.
  - rewrite IH. cbn [app]. do 3 f_equal. f_equal. unfold bytes_of, len. rewrite map_app, concat_app, app_length. lia.
Qed.

Lemma bytes_app a b : len (bytes_of (a ++ b)) = len (bytes_of a) + len (bytes_of b).
Proof. unfold bytes_of, len. rewrite map_app, concat_app, app_length. lia. Qed.

Lemma chunk_step_inv p c groups g f t : frame md5 st f t -> chunks_inv p c groups g ->
  (p = [] -> ch_size c = 0) ->
  exists groups' g', chunks_inv (p ++ [(f, t)]) (chunk_step max c (moved (len (bytes_of p)) t)) groups' g' /\
    (max <? (ch_size c + expanded t) mod 2 ^ 64 = true -> groups' = groups ++ [g] /\ g' = [(f, t)]) /\
    (max <? (ch_size c + expanded t) mod 2 ^ 64 = false -> groups' = groups /\ g' = g ++ [(f, t)]).
Proof.
  intros F C Z0. destruct (frame_ends _ _ _ _ F) as (S0 & N0 & Pos). unfold chunk_step. rewrite expanded_moved. cbn [moved t_start t_next].
  destruct C as [A D O L N T H Sz].
  assert (One : len (bytes_of [(f, t)]) = len f) by (unfold bytes_of; cbn; now rewrite app_nil_r).
  destruct (max <? (ch_size c + expanded t) mod 2 ^ 64) eqn:Cmp.
  - exists (groups ++ [g]), [(f, t)]. split; [|split; [auto|discriminate]]. split; cbn [ch_done ch_offset ch_length ch_size].
    + rewrite concat_app. cbn. rewrite app_nil_r. now rewrite A.
    + rewrite extents_snoc, D, O, L. reflexivity.
    + rewrite concat_app. cbn. rewrite app_nil_r, A, S0. lia.
    + rewrite One, S0, N0. lia.
    + discriminate.
    + destruct groups as [|x groups]; cbn [app tl] in *; [constructor|]. apply Forall_app. split; [assumption|].
      constructor; [|constructor]. destruct p as [|q p]; [|apply N; discriminate].
      exfalso. cbn [concat] in A. destruct x as [|y x]; [|discriminate]. destruct (H groups eq_refl) as (? & ? & ? & Q & _). discriminate.
    + intros gs E. destruct groups as [|x groups]; cbn [app] in E.
      * injection E as -> <-. cbn [concat app] in A. subst p. exists f, t, []. split; [reflexivity|]. rewrite Z0 in Cmp by reflexivity.
        apply Z.ltb_lt in Cmp. rewrite Z.add_0_l, Z.mod_small in Cmp by apply expanded_bound. exact Cmp.
      * injection E as -> <-. destruct (H _ eq_refl) as (f0 & t0 & p' & -> & B). exists f0, t0, (p' ++ [(f, t)]). auto.
    + assumption.
  - exists groups, (g ++ [(f, t)]). split; [|split; [discriminate|auto]]. split; cbn [ch_done ch_offset ch_length ch_size].
    + now rewrite app_assoc, A.
    + assumption.
    + assumption.
    + rewrite bytes_app, One, L, S0, N0. lia.
    + intros _ E. now apply app_eq_nil in E.
    + assumption.
    + intros gs E. destruct (H _ E) as (f0 & t0 & p' & -> & B). exists f0, t0, (p' ++ [(f, t)]). auto.
    + apply Z.mod_pos_bound. lia.
Qed.

Lemma chunks_fold l : made_of md5 st l -> forall p c groups g, chunks_inv p c groups g -> (p = [] -> ch_size c = 0) ->
  exists groups' g', chunks_inv (p ++ l) (fold_left (chunk_step max) (place (len (bytes_of p)) l) c) groups' g'.
Proof.
  induction l as [|[f t] l IH]; intros G p c groups g C Z0; cbn [place fold_left].
  { exists groups, g. now rewrite app_nil_r. }
  apply made_first in G as [F G]. cbn [fst snd] in F.
  destruct (chunk_step_inv p c groups g f t F C Z0) as (groups' & g' & C' & _).
  assert (E : len (bytes_of p) + len f = len (bytes_of (p ++ [(f, t)]))).
  { rewrite bytes_app. unfold bytes_of at 3. cbn [map fst concat]. now rewrite app_nil_r. }
  change (Z.of_nat (List.length f)) with (len f). rewrite E. destruct (IH G (p ++ [(f, t)]) _ groups' g' C') as (gs & g'' & C''). { intros Q. now apply app_eq_nil in Q. }
  exists gs, g''. now rewrite <- app_assoc in C''.
Qed.

Definition chunk_start : chunking := {| ch_done := []; ch_offset := 0; ch_length := 0; ch_size := 0 |}.

Lemma chunk_start_inv : chunks_inv [] chunk_start [] [].
Proof. split; cbn; try reflexivity; try constructor; try contradiction; try discriminate; lia. Qed.

Lemma made_bytes l : made_of md5 st l -> l <> [] -> 0 < len (bytes_of l).
Proof.
  intros G N. destruct l as [|[f t] l]; [now elim N|]. apply made_first in G as [F _]. destruct (frame_ends _ _ _ _ F) as (_ & _ & P).
  unfold bytes_of. cbn [map fst concat]. unfold len in *. rewrite app_length. cbn [fst] in P. lia.
Qed.

Lemma made_app a b : made_of md5 st (a ++ b) <-> made_of md5 st a /\ made_of md5 st b.
Proof. apply Forall_app. Qed.

(** The end of the function. *)
Lemma chunk_end_ok l c groups g : made_of md5 st l -> chunks_inv l c groups g ->
  (groups = [[]] /\ chunk_end c = [(0, 0)]) \/
  (groups <> [[]] /\ chunk_end c = extents 0 (groups ++ [g])).
Proof.
  intros G [A D O L N T H Sz]. unfold chunk_end. rewrite D.
  destruct groups as [|x groups] using rev_ind.
  { right. split; [discriminate|]. cbn [extents rev app]. rewrite O, L. reflexivity. }
  clear IHgroups. rewrite extents_snoc, rev_app_distr. cbn [rev app]. rewrite O.
  rewrite concat_app. cbn [concat]. rewrite app_nil_r, bytes_app.
  destruct (list_eq_dec (list_eq_dec Z.eq_dec) (map fst x) []) as [E|E].
  - assert (x = []) as -> by (destruct x; [reflexivity|discriminate]).
    destruct groups as [|y groups].
    + left. split; [reflexivity|]. reflexivity.
    + cbn [app tl] in T. apply Forall_app in T as [_ T]. inversion T; subst. congruence.
  - right. split.
    { intros Q. destruct groups as [|y groups]; cbn [app] in Q; [injection Q as ->; now apply E|]. injection Q as _ Q. now destruct groups. }
    assert (P : 0 < len (bytes_of x)).
    { apply made_bytes; [|intros ->; now apply E]. rewrite <- A, concat_app in G. cbn [concat] in G. rewrite app_nil_r in G.
      apply made_app in G as [G _]. now apply made_app in G as [_ G]. }
    destruct (Z.eqb_spec (0 + len (bytes_of (concat groups))) (len (bytes_of (concat groups)) + len (bytes_of x))); [lia|].
    rewrite (extents_snoc (groups ++ [x])), extents_snoc, L. rewrite concat_app. cbn [concat]. rewrite app_nil_r, bytes_app. 
    do 2 f_equal.
Qed.

(** the sizes of the open group *)
Lemma chunks_sizes l : made_of md5 st l -> forall p c groups g, chunks_inv p c groups g ->
  (p = [] -> ch_size c = 0) -> Forall (fun q => 0 <= t_rows (snd q)) l -> ch_size c + total_decoded l < 2 ^ 64 -> ch_size c <= max ->
  Forall (fun g => total_decoded (tl g) <= max) groups -> total_decoded (tl g) <= ch_size c ->
  exists groups' g', chunks_inv (p ++ l) (fold_left (chunk_step max) (place (len (bytes_of p)) l) c) groups' g' /\
    Forall (fun g => total_decoded (tl g) <= max) groups' /\ total_decoded (tl g') <= max.
Proof.
  induction l as [|[f t] l IH]; intros G p c groups g C Z0 R Tot Sz Gs Gt; cbn [place fold_left].
  { exists groups, g. rewrite app_nil_r. split; [assumption|]. split; [assumption|lia]. }
  apply made_first in G as [F G]. cbn [fst snd] in F. inversion R as [|? ? R1 R2]; subst. cbn [snd] in R1. cbn [total_decoded] in Tot.
  assert (Pl : 0 <= total_decoded l).
  { clear -R2. induction l as [|[f t] l IH]; cbn [total_decoded]; [lia|]. inversion R2; subst. cbn [snd] in *. specialize (IH H2).
    unfold decoded_bytes. nia. }
  assert (Ex : expanded t = decoded_bytes t).
  { unfold expanded. apply Z.mod_small. unfold decoded_bytes in *. destruct C. nia. }
  assert (Pt : 0 <= decoded_bytes t) by (unfold decoded_bytes; nia).
  destruct (chunk_step_inv p c groups g f t F C Z0) as (groups' & g' & C' & Y & Nn).
  assert (E : len (bytes_of p) + len f = len (bytes_of (p ++ [(f, t)]))).
  { rewrite bytes_app. unfold bytes_of at 3. cbn [map fst concat]. now rewrite app_nil_r. }
  assert (Sm : (ch_size c + expanded t) mod 2 ^ 64 = ch_size c + decoded_bytes t).
  { rewrite Ex. apply Z.mod_small. destruct C. lia. }
  change (Z.of_nat (List.length f)) with (len f). rewrite E. replace (p ++ (f, t) :: l) with ((p ++ [(f, t)]) ++ l) by (now rewrite <- app_assoc).
  assert (Szn : ch_size (chunk_step max c (moved (len (bytes_of p)) t)) =
    if max <? (ch_size c + expanded t) mod 2 ^ 64 then ch_size c else ch_size c + decoded_bytes t).
  { unfold chunk_step. rewrite expanded_moved. destruct (max <? _); cbn [ch_size]; [reflexivity|exact Sm]. }
  assert (Hsnoc : forall a x, total_decoded (a ++ [x]) = total_decoded a + decoded_bytes (snd x)).
  { clear. induction a as [|[f t] a IH]; intros [f' t']; cbn [app total_decoded snd]; [lia|]. rewrite IH. cbn [snd]. lia. }
  destruct (max <? (ch_size c + expanded t) mod 2 ^ 64) eqn:Cmp.
  - destruct (Y eq_refl) as [-> ->]. apply IH with (groups := groups ++ [g]) (g := [(f, t)]); try assumption; rewrite ?Szn.
    + intros Q. now apply app_eq_nil in Q.
    + lia.
    + lia.
    + apply Forall_app. split; [assumption|]. constructor; [lia|constructor].
    + cbn [tl total_decoded]. destruct C. lia.
  - destruct (Nn eq_refl) as [-> ->]. apply Z.ltb_ge in Cmp. rewrite Sm in Cmp.
    apply IH with (groups := groups) (g := g ++ [(f, t)]); try assumption; rewrite ?Szn.
    + intros Q. now apply app_eq_nil in Q.
    + lia.
    + lia.
    + destruct g as [|x g]; cbn [app tl] in *; [cbn [total_decoded]; destruct C; lia|]. rewrite Hsnoc. cbn [snd]. lia.
Qed.
End Chunks.

(** The chunks tile the file at frame boundaries, unless the first table alone exceeds the
    size asked for. *)
Theorem C51_chunks : forall md5 st l est max, made_of md5 st l -> estimate est (bytes_of l) ->
  (forall f t rest, l = (f, t) :: rest -> expanded t <= max) ->
  forall fuel, (List.length l < fuel)%nat ->
  exists groups, concat groups = l /\ get_chunks md5 st est (bytes_of l) max fuel = Ok (extents 0 groups) /\
    (l <> [] -> Forall (fun g => g <> []) groups).
Proof.
  intros md5 st l est max G He Fit fuel Hf. unfold get_chunks. rewrite (made_scan md5 st) by assumption. cbn [bind].
  destruct (chunks_fold md5 st max l G [] chunk_start [] [] (chunk_start_inv max) (fun _ => eq_refl)) as (groups & g & C).
  cbn [app] in C. change (len (bytes_of [])) with 0 in C. fold chunk_start.
  destruct (chunk_end_ok md5 st max l _ groups g G C) as [(Q & _)|(Q & E)].
  - destruct C as [_ _ _ _ _ _ H _]. destruct (H [] Q) as (f & t & p' & -> & B). specialize (Fit f t p' eq_refl). lia.
  - exists (groups ++ [g]). rewrite E. split; [rewrite concat_app; cbn; rewrite app_nil_r; apply C|]. split; [reflexivity|].
    intros Nl. destruct C as [A _ _ _ N T H _]. apply Forall_app. split; [|constructor; [auto|constructor]].
    destruct groups as [|x groups]; [constructor|]. cbn [tl] in T. constructor; [|assumption].
    intros ->. destruct (H groups eq_refl) as (f & t & p' & -> & B). specialize (Fit f t p' eq_refl). lia.
Qed.
Print Assumptions C51_chunks.

(** In general a chunk holds at most [max] bytes of decoded data besides its first table. *)
Theorem C51_sizes : forall md5 st l est max, made_of md5 st l -> estimate est (bytes_of l) -> 0 <= max ->
  Forall (fun p => 0 <= t_rows (snd p)) l -> total_decoded l < 2 ^ 64 ->
  (forall f t rest, l = (f, t) :: rest -> decoded_bytes t <= max) ->
  forall fuel, (List.length l < fuel)%nat ->
  exists groups, concat groups = l /\ get_chunks md5 st est (bytes_of l) max fuel = Ok (extents 0 groups) /\
    Forall (fun g => total_decoded (tl g) <= max) groups.
Proof.
  intros md5 st l est max G He Hm R Tot Fit fuel Hf. unfold get_chunks. rewrite (made_scan md5 st) by assumption. cbn [bind].
  destruct (chunks_sizes md5 st max l G [] chunk_start [] [] (chunk_start_inv max) (fun _ => eq_refl) R) as (groups & g & C & S1 & S2);
    try (cbn; lia); try constructor.
  cbn [app] in C. change (len (bytes_of [])) with 0 in C. fold chunk_start.
  destruct (chunk_end_ok md5 st max l _ groups g G C) as [(Q & _)|(Q & E)].
  - destruct C as [_ _ _ _ _ _ H _]. destruct (H [] Q) as (f & t & p' & -> & B). specialize (Fit f t p' eq_refl).
    unfold expanded in B. pose proof (Z.mod_le (t_rows t * Z.of_nat (List.length (t_cols t)) * 8) (2 ^ 64)) as M. inversion R; subst. cbn [snd] in *.
    unfold decoded_bytes in *. nia.
  - exists (groups ++ [g]). rewrite E. split; [rewrite concat_app; cbn; rewrite app_nil_r; apply C|]. split; [reflexivity|].
    apply Forall_app. split; [assumption|]. constructor; [assumption|constructor].
Qed.
Print Assumptions C51_sizes.

(** When the first table alone exceeds the size and the rest fits, nothing is left: the only
    chunk is empty, and splitting the file loses all of it. *)
Theorem C51_lost_refuted : forall md5 st f t rest est max, made_of md5 st ((f, t) :: rest) ->
  estimate est (bytes_of ((f, t) :: rest)) ->
  Forall (fun p => 0 <= t_rows (snd p)) ((f, t) :: rest) -> total_decoded ((f, t) :: rest) < 2 ^ 64 ->
  max < decoded_bytes t -> total_decoded rest <= max ->
  forall fuel, (S (List.length rest) < fuel)%nat ->
  get_chunks md5 st est (bytes_of ((f, t) :: rest)) max fuel = Ok [(0, 0)].
Proof.
  intros md5 st f t rest est max G He R Tot Big Small fuel Hf. unfold get_chunks.
  rewrite (made_scan md5 st) by assumption. cbn [bind place fold_left].
  apply made_first in G as [F G]. cbn [fst snd] in F. destruct (frame_ends _ _ _ _ F) as (S0 & N0 & P0).
  inversion R as [|? ? R1 R2]; subst. cbn [snd] in R1. cbn [total_decoded] in Tot.
  assert (Pos : forall l, Forall (fun p : list Z * table => 0 <= t_rows (snd p)) l -> 0 <= total_decoded l).
  { clear. induction l as [|[f t] l IH]; intros H; cbn [total_decoded]; [lia|]. inversion H; subst. cbn [snd] in *. specialize (IH H3).
    unfold decoded_bytes. nia. }
  pose proof (Pos rest R2) as Pr. assert (Pt : 0 <= decoded_bytes t) by (unfold decoded_bytes; nia).
  unfold chunk_step at 2. rewrite expanded_moved. cbn [ch_size ch_done ch_offset ch_length moved t_start t_next app].
  assert (Ex : (0 + expanded t) mod 2 ^ 64 = decoded_bytes t).
  { unfold expanded. fold (decoded_bytes t). rewrite Z.add_0_l, !Z.mod_small; lia. }
  rewrite Ex. destruct (Z.ltb_spec max (decoded_bytes t)); [|lia]. rewrite S0.
  assert (X : forall l off c, made_of md5 st l -> Forall (fun p => 0 <= t_rows (snd p)) l -> ch_done c = [(0, 0)] -> ch_offset c = 0 ->
            0 <= ch_size c -> ch_size c + total_decoded l <= max -> ch_size c + total_decoded l < 2 ^ 64 ->
            chunk_end (fold_left (chunk_step max) (place off l) c) = [(0, 0)]).
  { clear. induction l as [|[f t] l IH]; intros off c G R D O S1 S2 S3; cbn [place fold_left].
    - unfold chunk_end. rewrite D, O. reflexivity.
    - apply made_first in G as [F G]. inversion R as [|? ? R1 R2]; subst. cbn [snd total_decoded] in *.
      assert (Pl : 0 <= total_decoded l).
      { clear -R2. induction l as [|[f t] l IH]; cbn [total_decoded]; [lia|]. inversion R2; subst. cbn [snd] in *. specialize (IH H2).
        unfold decoded_bytes. nia. }
      assert (Pt : 0 <= decoded_bytes t) by (unfold decoded_bytes; nia).
      assert (Ex : (ch_size c + expanded t) mod 2 ^ 64 = ch_size c + decoded_bytes t).
      { unfold expanded. fold (decoded_bytes t). rewrite (Z.mod_small (decoded_bytes t)) by lia. apply Z.mod_small. lia. }
      apply IH; try assumption; unfold chunk_step; rewrite expanded_moved, Ex;
        (destruct (Z.ltb_spec max (ch_size c + decoded_bytes t)); [lia|]); cbn [ch_done ch_offset ch_size]; (assumption || lia). }
  f_equal. apply X; cbn [ch_done ch_offset ch_size]; try assumption; try reflexivity; lia.
Qed.
Print Assumptions C51_lost_refuted.

(** ** The index *)

Lemma index_fold : forall vs x, 0 < ix_n x ->
  let y := fold_left index_step vs x in
  exists more n, 0 < n /\ ix_n y = n /\
    ix_rows y ++ [(ix_prev y, ix_n y)] = ix_rows x ++ more /\
    hd_error more = Some (ix_prev x, snd (hd (0, 0) more)) /\ ix_n x <= snd (hd (0, 0) more) /\
    repeat (ix_prev x) (Z.to_nat (ix_n x)) ++ vs = flat_map (fun p => repeat (fst p) (Z.to_nat (snd p))) more /\
    Forall (fun p => 0 < snd p) more /\
    (forall i a b, nth_error more i = Some a -> nth_error more (S i) = Some b -> fst a <> fst b).
Proof.
  induction vs as [|v vs IH]; intros x Hx y.
  - subst y. cbn [fold_left]. exists [(ix_prev x, ix_n x)], (ix_n x). cbn [hd_error hd snd flat_map fst].
    rewrite !app_nil_r. split; [assumption|]. split; [reflexivity|]. split; [reflexivity|]. split; [reflexivity|]. split; [lia|].
    split; [reflexivity|]. split; [constructor; [assumption|constructor]|]. intros [|i] a b E1 E2; [discriminate|now destruct i].
  - subst y. cbn [fold_left]. remember (index_step x v) as z eqn:Ez. unfold index_step in Ez.
    destruct (Z.eqb_spec v (ix_prev x)) as [->|Nv]; subst z.
    + destruct (IH {| ix_rows := ix_rows x; ix_prev := ix_prev x; ix_n := ix_n x + 1 |}) as (more & n & P & En & R & H1 & H2 & Q & F & D); [cbn; lia|].
      cbn [ix_rows ix_prev ix_n] in *. exists more, n. split; [assumption|]. split; [exact En|]. split; [exact R|]. split; [exact H1|]. split; [lia|].
      split; [|split; assumption]. rewrite <- Q. replace (Z.to_nat (ix_n x + 1)) with (Z.to_nat (ix_n x) + 1)%nat by lia.
      rewrite repeat_app. cbn [repeat]. now rewrite <- app_assoc.
    + destruct (Z.ltb_spec 0 (ix_n x)); [|lia].
      destruct (IH {| ix_rows := ix_rows x ++ [(ix_prev x, ix_n x)]; ix_prev := v; ix_n := 1 |}) as (more & n & P & En & R & H1 & H2 & Q & F & D); [cbn; lia|].
      cbn [ix_rows ix_prev ix_n] in *. exists ((ix_prev x, ix_n x) :: more), n. split; [assumption|]. split; [exact En|].
      split; [rewrite R, <- app_assoc; reflexivity|]. cbn [hd_error hd snd fst flat_map]. split; [reflexivity|]. split; [lia|].
      split; [now rewrite <- Q|]. split; [constructor; assumption|].
      intros [|i] a b E1 E2; cbn [nth_error] in E1, E2; [|now apply (D i)].
      injection E1 as <-. destruct more as [|m more]; [discriminate|]. cbn [nth_error] in E2. injection E2 as <-.
      cbn [hd_error hd] in H1. injection H1 as H1. destruct m as [m1 m2]. cbn [fst snd] in *. congruence.
Qed.

(** The index of a block is its runs of equal seqno, whatever the values. *)
Theorem C51_index : forall vs, runs vs (index_block vs).
Proof.
  intros [|v vs].
  { split; [reflexivity|constructor|intros [|i] a b E; discriminate]. }
  unfold index_block. cbn [fold_left].
  set (x0 := index_step {| ix_rows := []; ix_prev := -1; ix_n := 0 |} v).
  assert (X : ix_rows x0 = [] /\ ix_prev x0 = v /\ ix_n x0 = 1).
  { unfold x0, index_step. cbn [ix_prev ix_rows ix_n]. destruct (Z.eqb_spec v (-1)) as [->|]; cbn; auto. }
  destruct X as (X1 & X2 & X3). destruct (index_fold vs x0) as (more & n & P & En & R & _ & _ & Q & F & D); [lia|].
  rewrite X1, X2, X3 in *. cbn [app repeat Z.to_nat Pos.to_nat Pos.iter_op] in *. destruct (Z.ltb_spec 0 (ix_n (fold_left index_step vs x0))); [|lia].
  rewrite R. split; [now rewrite <- Q|assumption|assumption].
Qed.
Print Assumptions C51_index.

(** Every block contributes exactly its runs, in order, with its own extent. *)
Theorem C51_index_rows : forall blocks seqnos, List.length blocks = List.length seqnos ->
  exists rs, List.length rs = List.length blocks /\
    (forall k b vs, nth_error blocks k = Some b -> nth_error seqnos k = Some vs ->
      exists r, runs vs r /\ nth_error rs k = Some (map (fun p => (fst b, snd b, fst p, snd p)) r)) /\
    index_rows blocks seqnos = concat rs.
Proof.
  intros blocks seqnos L.
  exists (map (fun p => map (fun r => (fst (fst p), snd (fst p), fst r, snd r)) (index_block (snd p))) (combine blocks seqnos)).
  split; [rewrite map_length, combine_length; lia|]. split.
  - intros k b vs Eb Ev. exists (index_block vs). split; [apply C51_index|]. rewrite nth_error_map.
    assert (Ec : nth_error (combine blocks seqnos) k = Some (b, vs)).
    { clear L. revert seqnos k Eb Ev. induction blocks as [|x bs IH]; intros [|y ys] [|k] E1 E2; try discriminate; cbn in *; [congruence|auto]. }
    rewrite Ec. reflexivity.
  - unfold index_rows. apply flat_map_concat_map.
Qed.
Print Assumptions C51_index_rows.
