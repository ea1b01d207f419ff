(** The Fortran interface, api/odc.f90:616-1188: what each procedure asks of the C API.
    Local variables that are given a value in their declaration keep their value between
    calls (Fortran 2008, 5.2.3: the SAVE attribute is implied); they are the record [saved].
    Integers do not overflow in the model (the Fortran code multiplies an extent of an array
    by 8 and subtracts 1 from an index in default integers). *)
From Verif Require Import Base Stream Codec Meta Header Table Strided ColumnInfo.
From Verif Require CFrames CDecoder CEncoder.
Open Scope Z_scope.

(** An actual argument for an assumed-shape dummy real(dp) :: data(:,:): the address of its
    first element, its extents and the distances in bytes between neighbours. *)
Record array := { a_base : Z; a_n1 : Z; a_n2 : Z; a_s1 : Z; a_s2 : Z }.

(** The calls of a program on readers, frames, decoders and encoders.  [option] is an
    optional argument; texts have the length they are declared with. *)
Inductive fcall :=
(* readers and frames, odc.f90:685-871; a path is given by what the file holds *)
| ROpen (file : list Z) (est : Z) | RClose (r : nat) | FInit (r : nat) | FFree (f : nat) | FCopy (f : nat)
| FNext (f : nat) (aggregated : option bool) (maximum_rows : option Z)
| FRowCount (f : nat) | FColumnCount (f : nat) | FColumnAttributes (f : nat) (col : Z) | FBitfieldAttributes (f : nat) (col field : Z)
| FPropertiesCount (f : nat) | FPropertyIdx (f : nat) (idx : Z) | FProperty (f : nat) (key : list Z)
(* decoders, 875-1041 *)
| DInit (d : nat) (column_major : option bool) | DDefaults (d f : nat) | DSetRowCount (d : nat) (n : Z)
| DSetData (d : nat) (data : array) (column_major : option bool) | DAddColumn (d : nat) (name : list Z)
| DColumnSetSize (d : nat) (col size : Z) | DColumnSetArray (d : nat) (col : Z) (element_size stride : option Z) (data : option (option Z))
| DDecode (d f : nat) (nthreads : option Z)
(* encoders, 1045-1188 *)
| EInit (e : nat) | ESetRowCount (e : nat) (n : Z) | ESetRowsPerFrame (e : nat) (n : Z) | ESetData (e : nat) (data : array) (column_major : option bool)
| EAddColumn (e : nat) (name : list Z) (ty : Z) | EAddProperty (e : nat) (key val : list Z)
| EColumnSetSize (e : nat) (col : Z) (element_size element_size_doubles : option Z)
| EColumnSetArray (e : nat) (col : Z) (element_size element_size_doubles stride : option Z) (data : option (option Z))
| EColumnAddBitfield (e : nat) (col : Z) (name : list Z) (nbits : Z) | EEncode (e : nat) (m : mem).

(** The calls of the C API: those of CFrames and CEncoder, and those of the decoder. *)
Inductive dcall :=
| DecNew | DecMajor (b : bool) | DecDefaults (f : nat) | DecRows (n : Z) | DecArray (data : option Z) (width height : Z) (major : bool) | DecColumn (name : list Z)
| DecSize (col size : Z) | DecColumnArray (col size stride : Z) (data : option Z) | DecDecode (f : nat) (nthreads : Z).
Inductive ccall := CFrame (c : CFrames.call) | CDec (d : nat) (c : dcall) | CEncNew (e : nat) | CEnc (e : nat) (c : CEncoder.call).

Record saved := {
  next_max : Z; next_aggregated : bool;                    (* frame_next, 729-730 *)
  init_major : bool;                                       (* decoder_initialise, 879 *)
  ddata_major : bool;                                      (* decoder_set_data_array, 919 *)
  dcol_size : Z; dcol_stride : Z; dcol_data : option Z;    (* decoder_column_set_data_array, 995-997 *)
  edata_major : bool;                                      (* encoder_set_data_array, 1078 *)
  ecol_size : Z;                                           (* encoder_column_set_data_size, 1124 *)
  earr_size : Z; earr_stride : Z; earr_data : option Z     (* encoder_column_set_data_array, 1141-1143 *)
}.
(** The values of the declarations. *)
Definition start : saved :=
  {| next_max := -1; next_aggregated := false; init_major := true; ddata_major := true; dcol_size := 0; dcol_stride := 0; dcol_data := None;
     edata_major := true; ecol_size := 0; earr_size := 0; earr_stride := 0; earr_data := None |}.

(** if (present(arg)) l_arg = arg *)
Definition assign {A} (arg : option A) (l : A) : A := match arg with Some v => v | None => l end.
Definition eight (arg : option Z) : option Z := match arg with Some v => Some (v * 8) | None => None end.

(** trim(text) // c_null_char, and what C takes the result for *)
Fixpoint trim (t : list Z) : list Z :=
  match t with
  | [] => []
  | b :: t' => match trim t' with [] => if b =? 32 then [] else [b] | r => b :: r end
  end.
Definition c_string (t : list Z) : list Z := until_nul (trim t ++ [0]).

(** width and height of an array, 920-929 and 1080-1089; c_loc(data) is the address of the
    first element whatever the distances. *)
Definition width (a : array) (major : bool) : Z := (if major then a_n2 a else a_n1 a) * 8.
Definition height (a : array) (major : bool) : Z := if major then a_n1 a else a_n2 a.

(** What a procedure leaves in its variables and asks of the C API. *)
Definition issue (s : saved) (c : fcall) : saved * list ccall :=
  match c with
  | ROpen file est => (s, [CFrame (CFrames.OpenReader file est)])                    (* 685-692 *)
  | RClose r => (s, [CFrame (CFrames.CloseReader r)])                                (* 694-699 *)
  | FInit r => (s, [CFrame (CFrames.NewFrame r)])                                    (* 703-708 *)
  | FFree f => (s, [CFrame (CFrames.FreeFrame f)])                                   (* 710-714 *)
  | FCopy f => (s, [CFrame (CFrames.CopyFrame f)])                                   (* 716-721 *)
  | FNext f aggregated maximum_rows =>                                               (* 723-743 *)
      let agg := assign aggregated (next_aggregated s) in
      let mx := assign maximum_rows (next_max s) in
      let agg := match maximum_rows, aggregated with Some _, None => true | _, _ => agg end in
      ({| next_max := mx; next_aggregated := agg; init_major := init_major s; ddata_major := ddata_major s; dcol_size := dcol_size s; dcol_stride := dcol_stride s; dcol_data := dcol_data s;
          edata_major := edata_major s; ecol_size := ecol_size s; earr_size := earr_size s; earr_stride := earr_stride s; earr_data := earr_data s |},
       [CFrame (if agg then CFrames.NextAggregated f mx else CFrames.NextFrame f)])
  | FRowCount f => (s, [CFrame (CFrames.RowCount f)])                                (* 745-750 *)
  | FColumnCount f => (s, [CFrame (CFrames.ColumnCount f)])                          (* 752-757 *)
  | FColumnAttributes f col => (s, [CFrame (CFrames.ColumnAttributes f (col - 1))])  (* 759-787 *)
  | FBitfieldAttributes f col field => (s, [CFrame (CFrames.BitfieldAttributes f (col - 1) (field - 1))])  (* 789-812 *)
  | FPropertiesCount f => (s, [CFrame (CFrames.PropertiesCount f)])                  (* 814-827 *)
  | FPropertyIdx f idx => (s, [CFrame (CFrames.PropertyIdx f (idx - 1))])            (* 829-846 *)
  | FProperty f key => (s, [CFrame (CFrames.Property f (c_string key))])             (* 848-871 *)
  | DInit d cm =>                                                                    (* 875-885 *)
      let major := assign cm (init_major s) in
      ({| next_max := next_max s; next_aggregated := next_aggregated s; init_major := major; ddata_major := ddata_major s; dcol_size := dcol_size s; dcol_stride := dcol_stride s; dcol_data := dcol_data s;
          edata_major := edata_major s; ecol_size := ecol_size s; earr_size := earr_size s; earr_stride := earr_stride s; earr_data := earr_data s |},
       [CDec d DecNew; CDec d (DecMajor major)])
  | DDefaults d f => (s, [CDec d (DecDefaults f)])                                   (* 893-898 *)
  | DSetRowCount d n => (s, [CDec d (DecRows n)])                                    (* 900-905 *)
  | DSetData d a cm =>                                                               (* 914-930 *)
      let major := assign cm (ddata_major s) in
      ({| next_max := next_max s; next_aggregated := next_aggregated s; init_major := init_major s; ddata_major := major; dcol_size := dcol_size s; dcol_stride := dcol_stride s; dcol_data := dcol_data s;
          edata_major := edata_major s; ecol_size := ecol_size s; earr_size := earr_size s; earr_stride := earr_stride s; earr_data := earr_data s |},
       [CDec d (DecArray (Some (a_base a)) (width a major) (height a major) major)])
  | DAddColumn d nm => (s, [CDec d (DecColumn (c_string nm))])                       (* 957-965 *)
  | DColumnSetSize d col size => (s, [CDec d (DecSize (col - 1) size)])              (* 976-984 *)
  | DColumnSetArray d col size stride data =>                                        (* 986-1003 *)
      let z := assign size (dcol_size s) in let t := assign stride (dcol_stride s) in let p := assign data (dcol_data s) in
      ({| next_max := next_max s; next_aggregated := next_aggregated s; init_major := init_major s; ddata_major := ddata_major s; dcol_size := z; dcol_stride := t; dcol_data := p;
          edata_major := edata_major s; ecol_size := ecol_size s; earr_size := earr_size s; earr_stride := earr_stride s; earr_data := earr_data s |},
       [CDec d (DecColumnArray (col - 1) z t p)])
  | DDecode d f nthreads => (s, [CDec d (DecDecode f (assign nthreads 1))])          (* 1029-1041; odc_decode is one thread, odc.cc:773-775 *)
  | EInit e => (s, [CEncNew e])                                                      (* 1045-1049 *)
  | ESetRowCount e n => (s, [CEnc e (CEncoder.SetRowCount n)])                       (* 1057-1062 *)
  | ESetRowsPerFrame e n => (s, [CEnc e (CEncoder.SetRowsPerFrame n)])               (* 1064-1069 *)
  | ESetData e a cm =>                                                               (* 1071-1091 *)
      let major := assign cm (edata_major s) in
      ({| next_max := next_max s; next_aggregated := next_aggregated s; init_major := init_major s; ddata_major := ddata_major s; dcol_size := dcol_size s; dcol_stride := dcol_stride s; dcol_data := dcol_data s;
          edata_major := major; ecol_size := ecol_size s; earr_size := earr_size s; earr_stride := earr_stride s; earr_data := earr_data s |},
       [CEnc e (CEncoder.SetDataArray (Some (a_base a)) (width a major) (height a major) (if major then 8 else 0))])
  | EAddColumn e nm ty => (s, [CEnc e (CEncoder.AddColumn (c_string nm) ty)])        (* 1093-1101 *)
  | EAddProperty e k v => (s, [CEnc e (CEncoder.AddProperty (c_string k) (c_string v))])  (* 1103-1113 *)
  | EColumnSetSize e col size doubles =>                                             (* 1115-1129 *)
      let z := assign (eight doubles) (assign size (ecol_size s)) in
      ({| next_max := next_max s; next_aggregated := next_aggregated s; init_major := init_major s; ddata_major := ddata_major s; dcol_size := dcol_size s; dcol_stride := dcol_stride s; dcol_data := dcol_data s;
          edata_major := edata_major s; ecol_size := z; earr_size := earr_size s; earr_stride := earr_stride s; earr_data := earr_data s |},
       [CEnc e (CEncoder.SetDataSize (col - 1) z)])
  | EColumnSetArray e col size doubles stride data =>                                (* 1131-1150 *)
      let z := assign (eight doubles) (assign size (earr_size s)) in let t := assign stride (earr_stride s) in let p := assign data (earr_data s) in
      ({| next_max := next_max s; next_aggregated := next_aggregated s; init_major := init_major s; ddata_major := ddata_major s; dcol_size := dcol_size s; dcol_stride := dcol_stride s; dcol_data := dcol_data s;
          edata_major := edata_major s; ecol_size := ecol_size s; earr_size := z; earr_stride := t; earr_data := p |},
       [CEnc e (CEncoder.SetColumnArray (col - 1) z t p)])
  | EColumnAddBitfield e col nm nbits => (s, [CEnc e (CEncoder.AddBitfield (col - 1) (c_string nm) nbits)])  (* 1152-1162 *)
  | EEncode e m => (s, [CEnc e (CEncoder.EncodeFrom m)])                             (* 1180-1188: odc_encode_to_stream with write_fn, which accepts every write *)
  end.

(** The C calls of a whole program. *)
Fixpoint issued (s : saved) (p : list fcall) : list ccall :=
  match p with [] => [] | c :: p' => snd (issue s c) ++ issued (fst (issue s c)) p' end.
Definition saved_after (p : list fcall) : saved := fold_left (fun s c => fst (issue s c)) p start.

(** ** What a program is told *)

(** fortranise_cstr, 616-626: the text up to its terminating NUL *)
Inductive reply :=
| RHandle (h : nat) | RDone | RNumber (n : Z) | RColumn (nm : list Z) (ty size doubles nbits : Z) | RMember (nm : list Z) (offset size : Z)
| RPair (k v : list Z) | RValue (v : option (list Z)) | RComplete | RError (e : exn).
Definition reply_of (a : CFrames.answer) : reply :=
  match a with
  | CFrames.Handle h => RHandle h
  | CFrames.Done => RDone
  | CFrames.Number n => RNumber n
  | CFrames.Described nm ty size nbits => RColumn (until_nul nm) ty size (Z.quot size 8) nbits       (* 778-784 *)
  | CFrames.Member nm offset size => RMember (until_nul nm) offset size                              (* 806-810 *)
  | CFrames.Pair k v => RPair (until_nul k) (until_nul v)                                            (* 841-844 *)
  | CFrames.Value v => RValue (match v with Some v => Some (until_nul v) | None => None end)         (* 861-869 *)
  | CFrames.Complete => RComplete
  | CFrames.Error e => RError e
  end.

(** decoder_data_array, 932-955, on odc_decoder_data_array, odc.cc:550-572: the pointer
    associated with data, a contiguous array, and column_major.  c_f_pointer with negative
    extents or without an array is not modelled. *)
Definition data_array (d : CDecoder.cdecoder) : outcome (array * bool) :=
  match (match CDecoder.cd_owned d with Some a => Some a | None => CDecoder.cd_ext d end) with
  | None => Throw AssertFailed
  | Some a =>
      let w := Z.quot (CDecoder.cd_width d) 8 in let h := CDecoder.cd_height d in
      Ok (if CDecoder.cd_major d then {| a_base := a; a_n1 := h; a_n2 := w; a_s1 := 8; a_s2 := 8 * h |}
          else {| a_base := a; a_n1 := w; a_n2 := h; a_s1 := 8; a_s2 := 8 * w |}, CDecoder.cd_major d)
  end.

(** ** The C API on decoders: odc.cc:497-611 by the functions of CDecoder. [shows f] are the
    tables that frame [f] shows. *)
Definition indexed {A} (col : Z) (f : nat -> outcome A) : outcome A := if 0 <=? col then f (Z.to_nat col) else Throw AssertFailed.
Definition decoder_call (shows : nat -> list table) (d : CDecoder.cdecoder) (c : dcall) : outcome CDecoder.cdecoder :=
  match c with
  | DecNew => Ok CDecoder.new_decoder
  | DecMajor b => Ok (CDecoder.set_column_major b d)
  | DecDefaults f => CDecoder.defaults_from_frame (shows f) d
  | DecRows n => Ok (CDecoder.set_row_count n d)
  | DecArray a w h major => CDecoder.set_data_array a w h major d
  | DecColumn nm => Ok (CDecoder.add_column nm d)
  | DecSize col size => indexed col (fun i => CDecoder.column_set_data_size i size d)
  | DecColumnArray col size stride data => indexed col (fun i => CDecoder.column_set_data_array i size stride data d)
  | DecDecode _ _ => Ok d     (* odc_decode_threaded is CDecoder.c_decode, a relation *)
  end.
(** A refused call leaves the decoder as it was (wrapApiFunction, odc.cc:133-164). *)
Definition decoder_after (shows : nat -> list table) (d : CDecoder.cdecoder) (c : dcall) : CDecoder.cdecoder :=
  match decoder_call shows d c with Ok d' => d' | _ => d end.

(** The calls on decoder [d], and on encoder [e] since it was last initialised.  Calls on an
    object that was never initialised are errors and not modelled. *)
Definition on_decoder (d : nat) (l : list ccall) : list dcall := concat (map (fun c => match c with CDec d' x => if Nat.eqb d d' then [x] else [] | _ => [] end) l).
Definition on_encoder (e : nat) (l : list ccall) : list CEncoder.call :=
  fold_left (fun acc c => match c with CEncNew e' => if Nat.eqb e e' then [] else acc | CEnc e' x => if Nat.eqb e e' then acc ++ [x] else acc | _ => acc end) l [].
Definition on_frames (l : list ccall) : list CFrames.call := concat (map (fun c => match c with CFrame x => [x] | _ => [] end) l).

Definition decoder_state (shows : nat -> list table) (d : nat) (p : list fcall) : CDecoder.cdecoder :=
  fold_left (decoder_after shows) (on_decoder d (issued start p)) CDecoder.new_decoder.
Definition encoder_calls (e : nat) (p : list fcall) : list CEncoder.call := on_encoder e (issued start p).
Definition frame_calls (p : list fcall) : list CFrames.call := on_frames (issued start p).
