(** What readers and frames of the C API are for: every frame of a reader is a window on the
    tables of its data, and advancing any of them moves the reader on. *)
From Verif Require Import Base Stream Codec Meta Header Table Reader ReadSpec ColumnInfo CFrames.
Open Scope Z_scope.

(** The next logical frame [fr] of the tables [left], leaving [left']. *)
Record taken (aggregated : bool) (limit : Z) (left fr left' : list table) : Prop := {
  tk_all : left = fr ++ left';
  tk_some : fr <> [];
  tk_single : aggregated = false -> length fr = 1%nat;
  tk_same : forall a l t, fr = a :: l -> In t l -> joinable compatible a t;
  tk_limit : 0 <= limit -> rows_in fr <= limit;
  (* it ends only at the end of the data, before an incompatible table or before a table
     that would exceed the limit *)
  tk_maximal : aggregated = true -> forall a l t rest, fr = a :: l -> left' = t :: rest ->
    ~ joinable compatible a t \/ 0 <= limit < rows_in fr + t_rows t
}.

(** A reader: the tables not yet delivered, and how they are to be grouped once decided. *)
Record areader := { a_left : list table; a_mode : option (bool * Z) }.
(** A frame: its reader, the tables it shows, and whether properties have been asked for by
    position since it was last advanced. *)
Record aframe := { a_reader : nat; a_shows : option (list table); a_listed : bool }.
Record aworld := { a_readers : list (option areader); a_frames : list (option aframe) }.

Definition a_nothing : aworld := {| a_readers := []; a_frames := [] |}.

(** the description of a column and of a member of a bitfield *)
Definition column (fr : list table) (col : Z) (info : cinfo) : Prop :=
  exists infos, column_infos fr = Ok infos /\ 0 <= col /\ nth_error infos (Z.to_nat col) = Some info.

(** What is answered by a frame that shows [fr]. *)
Inductive tells (fr : list table) : call -> answer -> Prop :=
| t_rows_of f : tells fr (RowCount f) (Number (rows_in fr))
| t_ncols f t rest : fr = t :: rest -> tells fr (ColumnCount f) (Number (Z.of_nat (length (t_cols t))))
| t_column f col i : column fr col i -> tells fr (ColumnAttributes f col) (Described (i_name i) (i_type i) (i_size i) (Z.of_nat (length (i_bits i))))
| t_no_column f col : (forall i, ~ column fr col i) -> tells fr (ColumnAttributes f col) (Error AssertFailed)
| t_member f col field i b : column fr col i -> 0 <= field -> nth_error (i_bits i) (Z.to_nat field) = Some b ->
    tells fr (BitfieldAttributes f col field) (Member (b_name b) (b_offset b) (b_size b))
| t_no_member f col field : (forall i, column fr col i -> ~ 0 <= field < Z.of_nat (length (i_bits i))) ->
    tells fr (BitfieldAttributes f col field) (Error AssertFailed)
| t_nprops f : tells fr (PropertiesCount f) (Number (Z.of_nat (length (frame_props fr))))
| t_prop f key : tells fr (Property f key) (Value (mget (frame_props fr) key))
| t_prop_at f idx k v : 0 <= idx -> nth_error (frame_props fr) (Z.to_nat idx) = Some (k, v) -> tells fr (PropertyIdx f idx) (Pair k v)
| t_no_prop f idx : ~ 0 <= idx < Z.of_nat (length (frame_props fr)) -> tells fr (PropertyIdx f idx) (Error AssertFailed).

Definition asked (c : call) : option nat :=
  match c with
  | RowCount f | ColumnCount f | ColumnAttributes f _ | BitfieldAttributes f _ _ | PropertiesCount f | PropertyIdx f _ | Property f _ => Some f
  | _ => None
  end.
Definition by_position (c : call) (a : answer) : bool := match c, a with PropertyIdx _ _, Pair _ _ => true | _, _ => false end.
Definition advances (c : call) : option (nat * (bool * Z)) :=
  match c with NextFrame f => Some (f, (false, -1)) | NextAggregated f limit => Some (f, (true, limit)) | _ => None end.

Definition mode_of (r : areader) (asked : bool * Z) : bool * Z := match a_mode r with Some m => m | None => asked end.

Definition put_reader (w : aworld) (r : nat) (x : option areader) : aworld := {| a_readers := list_set (a_readers w) r x; a_frames := a_frames w |}.
Definition put_frame (w : aworld) (f : nat) (x : option aframe) : aworld := {| a_readers := a_readers w; a_frames := list_set (a_frames w) f x |}.

(** The data [file], of which the handle estimates the length as [est] (0 if unknown), holds
    the tables [ts]: it is a sequence of frames with sensible row counts and bitfields. *)
Definition intact_data (md5 : list Z -> list Z) (st : settings) (file : list Z) (est : Z) (ts : list table) : Prop :=
  exists fs, tables_of md5 st fs ts /\ file = concat fs /\ estimate est file /\ Forall (fun t => 0 <= t_rows t < 2 ^ 63) ts /\ Forall (fun t => exists infos, column_infos [t] = Ok infos) ts.

Section Files.
(** [holds file est ts]: the data [file] holds the tables [ts] *)
Variable holds : list Z -> Z -> list table -> Prop.

(** [serves w c w' a]: the call [c] in state [w] returns [a] and leaves [w']. *)
Inductive serves (w : aworld) : call -> aworld -> answer -> Prop :=
| s_open file est ts : holds file est ts ->
    serves w (OpenReader file est) {| a_readers := a_readers w ++ [Some {| a_left := ts; a_mode := None |}]; a_frames := a_frames w |} (Handle (length (a_readers w)))
| s_close r x : nth_error (a_readers w) r = Some (Some x) -> serves w (CloseReader r) (put_reader w r None) Done
| s_new r x : nth_error (a_readers w) r = Some (Some x) ->
    serves w (NewFrame r) {| a_readers := a_readers w; a_frames := a_frames w ++ [Some {| a_reader := r; a_shows := None; a_listed := false |}] |} (Handle (length (a_frames w)))
| s_free f x : nth_error (a_frames w) f = Some (Some x) -> serves w (FreeFrame f) (put_frame w f None) Done
(* there is a next frame: it is shown *)
| s_next c f asked x r mode fr left' : advances c = Some (f, asked) -> nth_error (a_frames w) f = Some (Some x) -> nth_error (a_readers w) (a_reader x) = Some (Some r) ->
    mode = mode_of r asked -> taken (fst mode) (snd mode) (a_left r) fr left' ->
    serves w c (put_frame (put_reader w (a_reader x) (Some {| a_left := left'; a_mode := Some mode |})) f (Some {| a_reader := a_reader x; a_shows := Some fr; a_listed := false |})) Done
(* the end: nothing is shown *)
| s_end c f asked x r : advances c = Some (f, asked) -> nth_error (a_frames w) f = Some (Some x) -> nth_error (a_readers w) (a_reader x) = Some (Some r) ->
    a_left r = [] ->
    serves w c (put_frame (put_reader w (a_reader x) (Some {| a_left := []; a_mode := Some (mode_of r asked) |})) f (Some {| a_reader := a_reader x; a_shows := None; a_listed := a_listed x |})) Complete
(* a table larger than the limit is reported and skipped; the frame goes on showing what it showed *)
| s_large c f asked x r mode t left' : advances c = Some (f, asked) -> nth_error (a_frames w) f = Some (Some x) -> nth_error (a_readers w) (a_reader x) = Some (Some r) ->
    mode = mode_of r asked -> a_left r = t :: left' -> 0 <= snd mode < t_rows t ->
    serves w c (put_reader w (a_reader x) (Some {| a_left := left'; a_mode := Some mode |})) (Error AssertFailed)
(* a copy shows the same; it is not possible if there is nothing to show, or after properties were asked for by position *)
| s_copy f x fr : nth_error (a_frames w) f = Some (Some x) -> a_shows x = Some fr -> a_listed x = false ->
    serves w (CopyFrame f) {| a_readers := a_readers w; a_frames := a_frames w ++ [Some x] |} (Handle (length (a_frames w)))
| s_tell c f x fr a : asked c = Some f -> nth_error (a_frames w) f = Some (Some x) -> a_shows x = Some fr -> tells fr c a ->
    (* a position out of range is an error only the first time *)
    (forall idx, c = PropertyIdx f idx -> a_listed x = true -> 0 <= idx < Z.of_nat (length (frame_props fr))) ->
    serves w c (put_frame w f (Some {| a_reader := a_reader x; a_shows := Some fr; a_listed := a_listed x || by_position c a |})) a
| s_blank c f x : asked c = Some f -> nth_error (a_frames w) f = Some (Some x) -> a_shows x = None ->
    (forall idx, c = PropertyIdx f idx -> a_listed x = false) ->
    serves w c w (Error AssertFailed).

(** The calls a program may make in state [w]. *)
Inductive proper (w : aworld) : call -> Prop :=
| p_open file est ts : holds file est ts -> proper w (OpenReader file est)
| p_close r x : nth_error (a_readers w) r = Some (Some x) -> proper w (CloseReader r)
| p_new r x : nth_error (a_readers w) r = Some (Some x) -> proper w (NewFrame r)
| p_free f x : nth_error (a_frames w) f = Some (Some x) -> proper w (FreeFrame f)
| p_next c f asked x r : advances c = Some (f, asked) -> nth_error (a_frames w) f = Some (Some x) -> nth_error (a_readers w) (a_reader x) = Some (Some r) -> proper w c
| p_copy f x fr : nth_error (a_frames w) f = Some (Some x) -> a_shows x = Some fr -> a_listed x = false -> proper w (CopyFrame f)
| p_ask c f x : asked c = Some f -> nth_error (a_frames w) f = Some (Some x) ->
    (forall idx, c = PropertyIdx f idx -> a_listed x = true -> exists fr, a_shows x = Some fr /\ 0 <= idx < Z.of_nat (length (frame_props fr))) -> proper w c.

(** A history of proper calls and what they return. *)
Inductive history : aworld -> list call -> list answer -> aworld -> Prop :=
| h_nil w : history w [] [] w
| h_cons w c cs w1 a w2 l : serves w c w1 a -> history w1 cs l w2 -> history w (c :: cs) (a :: l) w2.

(** All calls of a program are proper, whatever the earlier ones return. *)
Inductive proper_program : aworld -> list call -> Prop :=
| pp_nil w : proper_program w []
| pp_cons w c cs : proper w c -> (forall w1 a, serves w c w1 a -> proper_program w1 cs) -> proper_program w (c :: cs).

End Files.
