(** Concrete cases for C59. *)
From Coq Require Import String.
From Verif Require Import Base Fp Stream Codec Meta Header Encoder Table Reader ReadSpec ReaderProofs P_Reader Quick Through ColumnInfo Spec EncodeWitness CFrames FramesSpec P_Frames.
Open Scope Z_scope.
Local Notation length := List.length.

(** Two frames of a text and a number, of one and two rows. *)
Definition vcols : list Meta.column :=
  [{| col_name := str "s"; col_type := ty_STRING; col_bfnames := []; col_bfsizes := []; col_coder := new_codec true LE KChars ty_STRING |};
   {| col_name := str "d@t"; col_type := ty_DOUBLE; col_bfnames := []; col_bfsizes := []; col_coder := new_codec true LE KLongReal ty_DOUBLE |}].
Definition vrow : list Z := [0; 0] ++ str "abcdefgh" ++ le_bytes 8 0.
Definition vframe (n : nat) (pr : props) : list Z :=
  let body := concat (repeat vrow n) in
  match serialize_header quick LE (Z.of_nat (length body)) (Z.of_nat n) pr vcols with Ok h => h ++ body | _ => [] end.
Definition vone : list Z := Eval vm_compute in vframe 1 [(str "k", str "one")].
Definition vtwo : list Z := Eval vm_compute in vframe 2 [].
Definition vfile : list Z := vone ++ vtwo.
Definition vlen : Z := Eval vm_compute in Z.of_nat (length vfile).

Lemma vframe_by f : (match read_table quick doubles 0 f 0 with Ok (Some t) => (t_next t =? Z.of_nat (length f)) && (0 <=? t_rows t) && (t_rows t <? 2 ^ 63) && is_ok (column_infos [t]) | _ => false end) = true ->
  exists t, frame quick doubles f t /\ 0 <= t_rows t < 2 ^ 63 /\ exists infos, column_infos [t] = Ok infos.
Proof.
  destruct (read_table quick doubles 0 f 0) as [[t|]| |] eqn:E; try discriminate. intros H. apply andb_prop in H as [H H4]. apply andb_prop in H as [H H3]. apply andb_prop in H as [H1 H2].
  exists t. split; [split; [exact E|]; lia|]. split; [lia|]. destruct (column_infos [t]) as [infos| |]; try discriminate. eauto.
Qed.

Theorem C59_data : exists ts, intact_data quick doubles vfile vlen ts /\ length ts = 2%nat.
Proof.
  destruct (vframe_by vone) as (t1 & F1 & R1 & D1); [vm_compute; reflexivity|]. destruct (vframe_by vtwo) as (t2 & F2 & R2 & D2); [vm_compute; reflexivity|].
  assert (G : good quick doubles [(vone, t1); (vtwo, t2)]) by (constructor; [exact F1|constructor; [exact F2|constructor]]).
  exists (place 0 [(vone, t1); (vtwo, t2)]). split; [|reflexivity]. exists [vone; vtwo]. split; [exact (place_tables_of quick doubles _ G)|]. split; [unfold vfile; cbn [concat]; now rewrite app_nil_r|].
  split; [right; vm_compute; reflexivity|]. cbn [place]. split; (constructor; [|constructor; [|constructor]]); cbn [moved t_rows]; try assumption.
Qed.
Print Assumptions C59_data.

(** A program whose calls are all proper. *)
Definition vprogram : list call :=
  [OpenReader vfile vlen; NewFrame 0; NewFrame 0; NextFrame 0; RowCount 0; ColumnAttributes 0 1; NextAggregated 1 5; RowCount 1; RowCount 0; PropertiesCount 0; PropertyIdx 0 0; Property 0 (str "k");
   NextFrame 1; RowCount 1; FreeFrame 0; CloseReader 0].

(** One reader with two frames; [listed]: properties of frame 0 may have been asked for by
    position. *)
Definition two_frames (listed : bool) (w : aworld) : Prop :=
  exists r x0 x1, a_readers w = [Some r] /\ a_frames w = [Some x0; Some x1] /\ a_reader x0 = 0%nat /\ a_reader x1 = 0%nat /\ (listed = false -> a_listed x0 = false).
Definition harmless (c : call) : bool :=
  match advances c with
  | Some (f, _) => Nat.ltb f 2
  | None => match asked c, c with Some f, PropertyIdx _ _ => false | Some f, _ => Nat.ltb f 2 | None, _ => false end
  end.
Lemma keeps_two (b b0 : bool) w c w' a : (harmless c = true /\ b = b0 \/ b = true /\ exists i, c = PropertyIdx 0 i) -> two_frames b0 w -> serves (intact_data quick doubles) w c w' a -> two_frames b w'.
Proof.
  intros H (r & x0 & x1 & Hr & Hf & E0 & E1 & L) SV.
  assert (LT : forall f x, nth_error (a_frames w) f = Some (Some x) -> (f = 0%nat /\ x = x0) \/ (f = 1%nat /\ x = x1)).
  { intros f x Q. rewrite Hf in Q. destruct f as [|[|[|f]]]; cbn in Q; inversion Q; auto. }
  assert (K : b = false -> b0 = false) by (destruct H as [[_ ->]|[-> _]]; congruence).
  assert (NP : forall f i, c = PropertyIdx f i -> b = true) by (intros f i ->; destruct H as [[Q _]|[-> _]]; [cbn in Q; discriminate|reflexivity]).
  inversion SV; subst; try (destruct H as [[Q _]|[_ [i Q]]]; discriminate).
  all: match goal with Q : nth_error (a_frames _) _ = Some (Some _) |- _ => destruct (LT _ _ Q) as [[-> ->]|[-> ->]] end.
  all: unfold two_frames, put_frame, put_reader; cbn [a_readers a_frames]; rewrite ?Hr, ?Hf, ?E0, ?E1; cbn [list_set];
    do 3 eexists; (split; [reflexivity|]); (split; [reflexivity|]); cbn [a_reader a_listed]; repeat (split; [reflexivity || assumption|]); intros B; try (apply L; exact (K B)); try reflexivity.
  rewrite (L (K B)). cbn. destruct c; cbn; try reflexivity. rewrite (NP _ _ eq_refl) in B. discriminate.
Qed.
Lemma two_frames_go b w c cs : harmless c = true -> two_frames b w -> (forall w', two_frames b w' -> proper_program (intact_data quick doubles) w' cs) -> proper_program (intact_data quick doubles) w (c :: cs).
Proof.
  intros Hc T N. constructor; [|intros w1 a S; apply N; eapply (keeps_two b b); eauto].
  destruct T as (r & x0 & x1 & Hr & Hf & E0 & E1 & L). unfold harmless in Hc. destruct (advances c) as [[f m]|] eqn:A.
  - eapply p_next with (f := f) (x := match f with O => x0 | _ => x1 end); [exact A|rewrite Hf; destruct f as [|[|[|f]]]; try reflexivity; discriminate|].
    instantiate (1 := r). destruct f as [|f]; rewrite ?E0, ?E1, Hr; reflexivity.
  - destruct (asked c) as [f|] eqn:Q; [|discriminate]. assert (F : Nat.ltb f 2 = true) by (destruct c; try exact Hc; discriminate).
    eapply p_ask with (f := f) (x := match f with O => x0 | _ => x1 end); [exact Q|rewrite Hf; destruct f as [|[|[|f]]]; try reflexivity; discriminate|].
    intros idx ->. discriminate.
Qed.

Theorem C59_witness : proper_program (intact_data quick doubles) a_nothing vprogram /\
  (match run quick doubles nothing vprogram with Ok (_, l) => l | _ => [] end) =
    [Handle 0; Handle 0; Handle 1; Done; Number 1; Described (str "d@t") ty_DOUBLE 8 0; Done; Number 2; Number 1; Number 1; Pair (str "k") (str "one"); Value (Some (str "one"));
     Complete; Error AssertFailed; Done; Done].
Proof.
  split; [|vm_compute; reflexivity]. destruct C59_data as (ts & D & _). unfold vprogram.
  Ltac gone S := inversion S; subst; clear S; try discriminate;
    repeat match goal with H : advances _ = Some _ |- _ => cbn in H; inversion H; subst; clear H | H : asked _ = Some _ |- _ => cbn in H; inversion H; subst; clear H end.
  constructor; [eapply p_open; exact D|intros w1 a1 S1; gone S1]. 
  constructor; [eapply p_new; cbn; reflexivity|intros w2 a2 S2; gone S2].
  constructor; [eapply p_new; cbn; reflexivity|intros w3 a3 S3; gone S3].
  match goal with |- proper_program _ ?w _ => assert (A : two_frames false w) by (do 3 eexists; repeat split; reflexivity); revert A; generalize w end.
  clear. intros w A.
  do 7 (apply (two_frames_go false); [reflexivity|exact A|clear w A; intros w A]).
  destruct A as (r & x0 & x1 & Hr & Hf & E0 & E1 & L). constructor.
  { eapply p_ask; [reflexivity|rewrite Hf; reflexivity|]. intros idx _ H. rewrite L in H by reflexivity. discriminate. }
  intros w' a' SV. apply (keeps_two true false) in SV; [|right; split; [reflexivity|now exists 0]|now exists r, x0, x1]. clear - SV. rename w' into w, SV into A.
  do 3 (apply (two_frames_go true); [reflexivity|exact A|clear w A; intros w A]).
  destruct A as (r & x0 & x1 & Hr & Hf & E0 & E1 & L). constructor; [eapply p_free; rewrite Hf; reflexivity|]. intros w1 a1 S1. gone S1.
  constructor; [eapply p_close; cbn; rewrite Hr; reflexivity|]. intros. constructor.
Qed.
Print Assumptions C59_witness.

(** Whether frames are aggregated is decided by the first call on a reader: later requests
    are ignored. *)
Theorem C59_mode_refuted :
  (match run quick doubles nothing [OpenReader (vfile ++ vtwo) 0; NewFrame 0; NextFrame 0; NextAggregated 0 (-1); RowCount 0] with Ok (_, l) => l | _ => [] end) = [Handle 0; Handle 0; Done; Done; Number 2] /\
  (match run quick doubles nothing [OpenReader (vfile ++ vtwo) 0; NewFrame 0; NextAggregated 0 (-1); RowCount 0] with Ok (_, l) => l | _ => [] end) = [Handle 0; Handle 0; Done; Number 5].
Proof. split; vm_compute; reflexivity. Qed.
Print Assumptions C59_mode_refuted.

(** Properties by position: an index that does not exist is an error at first and undefined
    afterwards; so is any index after the end of the data, and in a copy once the frame
    it was made from has moved on; a frame that shows nothing cannot be copied. *)
Definition undefined (calls : list call) : Prop := run quick doubles nothing calls = UB.
Definition begun : list call := [OpenReader vfile vlen; NewFrame 0; NextFrame 0].
Theorem C59_properties_refuted :
  (match run quick doubles nothing (begun ++ [PropertyIdx 0 1]) with Ok (_, l) => l | _ => [] end) = [Handle 0; Handle 0; Done; Error AssertFailed] /\
  undefined (begun ++ [PropertyIdx 0 0; PropertyIdx 0 1]) /\
  undefined [OpenReader vone 0; NewFrame 0; NextFrame 0; PropertyIdx 0 0; NextFrame 0; PropertyIdx 0 0] /\
  undefined (begun ++ [PropertyIdx 0 0; CopyFrame 0; NextFrame 0; PropertyIdx 1 0]) /\
  undefined [OpenReader vone 0; NewFrame 0; CopyFrame 0].
Proof. split; [vm_compute; reflexivity|]. repeat (split; [vm_compute; reflexivity|]). vm_compute. reflexivity. Qed.
Print Assumptions C59_properties_refuted.

(** Data cut inside its second frame. *)
Theorem C59_truncated_witness : cut_data quick doubles (firstn 300 vfile) 300 /\
  (match run quick doubles nothing [OpenReader (firstn 300 vfile) 300; NewFrame 0; NextFrame 0; NextFrame 0; NextFrame 0; NextFrame 0] with Ok (_, l) => l | _ => [] end) =
    [Handle 0; Handle 0; Done; Error Incomplete; Error AssertFailed; Error AssertFailed].
Proof.
  split; [|vm_compute; reflexivity]. exists [vone], vtwo, (300 - length vone)%nat.
  destruct (vframe_by vone) as (t1 & F1 & _); [vm_compute; reflexivity|]. destruct (vframe_by vtwo) as (t2 & F2 & _); [vm_compute; reflexivity|].
  split; [constructor; [eexists; exact F1|constructor; [eexists; exact F2|constructor]]|]. split; [vm_compute; lia|]. split; vm_compute; reflexivity.
Qed.
Print Assumptions C59_truncated_witness.
