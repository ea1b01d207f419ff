(** What the procedures of the Fortran interface mean, in terms of the C API. *)
From Verif Require Import Base Stream Codec Strided Fortran.
From Verif Require CFrames CEncoder.
Open Scope Z_scope.

(** ** Arguments *)

(** The C text for a Fortran text: without the trailing blanks, up to the first NUL. *)
Definition text (t s : list Z) : Prop :=
  exists blanks, Forall (fun b => b = 32) blanks /\ ~ In 0 s /\
    ((t = s ++ blanks /\ (forall s' b, s = s' ++ [b] -> b <> 32)) \/ exists rest, t = s ++ 0 :: rest).

(** Fortran counts from 1. *)
Definition counts (i col : Z) : Prop := i = col + 1.

(** An array for a table of [rows] rows of [doubles] doubles. *)
Definition shaped (a : array) (column_major : bool) (rows doubles : Z) : Prop :=
  if column_major then a_n1 a = rows /\ a_n2 a = doubles else a_n1 a = doubles /\ a_n2 a = rows.

Definition given {A} (arg : option A) (otherwise : A) : A := match arg with Some x => x | None => otherwise end.
(** a size given in bytes or, with precedence, in doubles *)
Definition given_size (bytes doubles : option Z) (otherwise : Z) : Z :=
  match doubles with Some n => 8 * n | None => given bytes otherwise end.
(** a limit on the rows asks for aggregation unless told otherwise *)
Definition grouped (v : saved) (aggregated : option bool) (limit : option Z) : bool :=
  match aggregated, limit with Some b, _ => b | None, Some _ => true | None, None => next_aggregated v end.

(** [means v c l]: the C calls for [c] are [l] if the values of omitted arguments are [v]. *)
Inductive means (v : saved) : fcall -> list ccall -> Prop :=
| m_open file est : means v (ROpen file est) [CFrame (CFrames.OpenReader file est)]
| m_close r : means v (RClose r) [CFrame (CFrames.CloseReader r)]
| m_frame r : means v (FInit r) [CFrame (CFrames.NewFrame r)]
| m_free f : means v (FFree f) [CFrame (CFrames.FreeFrame f)]
| m_copy f : means v (FCopy f) [CFrame (CFrames.CopyFrame f)]
| m_next f a l : grouped v a l = false -> means v (FNext f a l) [CFrame (CFrames.NextFrame f)]
| m_next_group f a l : grouped v a l = true -> means v (FNext f a l) [CFrame (CFrames.NextAggregated f (given l (next_max v)))]
| m_rows f : means v (FRowCount f) [CFrame (CFrames.RowCount f)]
| m_cols f : means v (FColumnCount f) [CFrame (CFrames.ColumnCount f)]
| m_column f i col : counts i col -> means v (FColumnAttributes f i) [CFrame (CFrames.ColumnAttributes f col)]
| m_member f i j col field : counts i col -> counts j field -> means v (FBitfieldAttributes f i j) [CFrame (CFrames.BitfieldAttributes f col field)]
| m_props f : means v (FPropertiesCount f) [CFrame (CFrames.PropertiesCount f)]
| m_prop_idx f i idx : counts i idx -> means v (FPropertyIdx f i) [CFrame (CFrames.PropertyIdx f idx)]
| m_prop f t s : text t s -> means v (FProperty f t) [CFrame (CFrames.Property f s)]
| m_dinit d cm : means v (DInit d cm) [CDec d DecNew; CDec d (DecMajor (given cm (init_major v)))]
| m_ddefaults d f : means v (DDefaults d f) [CDec d (DecDefaults f)]
| m_drows d n : means v (DSetRowCount d n) [CDec d (DecRows n)]
| m_ddata d a cm rows doubles : shaped a (given cm (ddata_major v)) rows doubles ->
    means v (DSetData d a cm) [CDec d (DecArray (Some (a_base a)) (8 * doubles) rows (given cm (ddata_major v)))]
| m_dcolumn d t s : text t s -> means v (DAddColumn d t) [CDec d (DecColumn s)]
| m_dsize d i col size : counts i col -> means v (DColumnSetSize d i size) [CDec d (DecSize col size)]
| m_darray d i col size stride data : counts i col ->
    means v (DColumnSetArray d i size stride data) [CDec d (DecColumnArray col (given size (dcol_size v)) (given stride (dcol_stride v)) (given data (dcol_data v)))]
| m_decode d f threads : means v (DDecode d f threads) [CDec d (DecDecode f (given threads 1))]
| m_einit e : means v (EInit e) [CEncNew e]
| m_erows e n : means v (ESetRowCount e n) [CEnc e (CEncoder.SetRowCount n)]
| m_eper e n : means v (ESetRowsPerFrame e n) [CEnc e (CEncoder.SetRowsPerFrame n)]
(* for the C API a column major array has columns of one double *)
| m_edata e a cm rows doubles : shaped a (given cm (edata_major v)) rows doubles ->
    means v (ESetData e a cm) [CEnc e (CEncoder.SetDataArray (Some (a_base a)) (8 * doubles) rows (if given cm (edata_major v) then 8 else 0))]
| m_ecolumn e t s ty : text t s -> means v (EAddColumn e t ty) [CEnc e (CEncoder.AddColumn s ty)]
| m_eprop e t s t' s' : text t s -> text t' s' -> means v (EAddProperty e t t') [CEnc e (CEncoder.AddProperty s s')]
| m_esize e i col size doubles : counts i col -> means v (EColumnSetSize e i size doubles) [CEnc e (CEncoder.SetDataSize col (given_size size doubles (ecol_size v)))]
| m_earray e i col size doubles stride data : counts i col ->
    means v (EColumnSetArray e i size doubles stride data)
      [CEnc e (CEncoder.SetColumnArray col (given_size size doubles (earr_size v)) (given stride (earr_stride v)) (given data (earr_data v)))]
| m_ebits e i col t s nbits : counts i col -> text t s -> means v (EColumnAddBitfield e i t nbits) [CEnc e (CEncoder.AddBitfield col s nbits)]
| m_encode e m : means v (EEncode e m) [CEnc e (CEncoder.EncodeFrom m)].

(** The documented values of omitted arguments (docs/content/reference/f90-reference.rst). *)
Definition documented : saved :=
  {| next_max := -1; next_aggregated := false; init_major := true; ddata_major := true; dcol_size := 0; dcol_stride := 0; dcol_data := None;
     edata_major := true; ecol_size := 0; earr_size := 0; earr_stride := 0; earr_data := None |}.

(** ** What is remembered *)

(** the value a call passes for an optional argument *)
Definition passes_max (c : fcall) : option Z := match c with FNext _ _ l => l | _ => None end.
Definition passes_aggregated (c : fcall) : option bool :=
  match c with FNext _ (Some b) _ => Some b | FNext _ None (Some _) => Some true | _ => None end.
Definition passes_init (c : fcall) : option bool := match c with DInit _ cm => cm | _ => None end.
Definition passes_ddata (c : fcall) : option bool := match c with DSetData _ _ cm => cm | _ => None end.
Definition passes_dsize (c : fcall) : option Z := match c with DColumnSetArray _ _ z _ _ => z | _ => None end.
Definition passes_dstride (c : fcall) : option Z := match c with DColumnSetArray _ _ _ z _ => z | _ => None end.
Definition passes_dptr (c : fcall) : option (option Z) := match c with DColumnSetArray _ _ _ _ z => z | _ => None end.
Definition passes_edata (c : fcall) : option bool := match c with ESetData _ _ cm => cm | _ => None end.
Definition sized (bytes doubles : option Z) : option Z := match doubles with Some n => Some (8 * n) | None => bytes end.
Definition passes_esize (c : fcall) : option Z := match c with EColumnSetSize _ _ z n => sized z n | _ => None end.
Definition passes_earr (c : fcall) : option Z := match c with EColumnSetArray _ _ z n _ _ => sized z n | _ => None end.
Definition passes_estride (c : fcall) : option Z := match c with EColumnSetArray _ _ _ _ z _ => z | _ => None end.
Definition passes_eptr (c : fcall) : option (option Z) := match c with EColumnSetArray _ _ _ _ _ z => z | _ => None end.

(** [v] is what was passed last, or [default] if nothing was *)
Definition latest {A} (passes : fcall -> option A) (default : A) (earlier : list fcall) (v : A) : Prop :=
  (exists p c q, earlier = p ++ c :: q /\ passes c = Some v /\ Forall (fun c' => passes c' = None) q) \/
  (Forall (fun c' => passes c' = None) earlier /\ v = default).

Record remembered (earlier : list fcall) (v : saved) : Prop := {
  r_max : latest passes_max (-1) earlier (next_max v);
  r_aggregated : latest passes_aggregated false earlier (next_aggregated v);
  r_init : latest passes_init true earlier (init_major v);
  r_ddata : latest passes_ddata true earlier (ddata_major v);
  r_dsize : latest passes_dsize 0 earlier (dcol_size v);
  r_dstride : latest passes_dstride 0 earlier (dcol_stride v);
  r_dptr : latest passes_dptr None earlier (dcol_data v);
  r_edata : latest passes_edata true earlier (edata_major v);
  r_esize : latest passes_esize 0 earlier (ecol_size v);
  r_earr : latest passes_earr 0 earlier (earr_size v);
  r_estride : latest passes_estride 0 earlier (earr_stride v);
  r_eptr : latest passes_eptr None earlier (earr_data v)
}.

(** Nothing but the default was ever passed for an argument that [c] leaves out. *)
Definition unaffected {A} (passes : fcall -> option A) (default : A) (earlier : list fcall) : Prop :=
  Forall (fun c' => forall x, passes c' = Some x -> x = default) earlier.
Definition untouched (earlier : list fcall) (c : fcall) : Prop :=
  match c with
  | FNext _ None None => unaffected passes_aggregated false earlier
  | FNext _ (Some true) None => unaffected passes_max (-1) earlier
  | DInit _ None => unaffected passes_init true earlier
  | DSetData _ _ None => unaffected passes_ddata true earlier
  | DColumnSetArray _ _ size stride data =>
      (size = None -> unaffected passes_dsize 0 earlier) /\ (stride = None -> unaffected passes_dstride 0 earlier) /\ (data = None -> unaffected passes_dptr None earlier)
  | ESetData _ _ None => unaffected passes_edata true earlier
  | EColumnSetSize _ _ None None => unaffected passes_esize 0 earlier
  | EColumnSetArray _ _ size doubles stride data =>
      (size = None /\ doubles = None -> unaffected passes_earr 0 earlier) /\ (stride = None -> unaffected passes_estride 0 earlier) /\ (data = None -> unaffected passes_eptr None earlier)
  | _ => True
  end.
Definition no_leftovers (p : list fcall) : Prop := forall q c r, p = q ++ c :: r -> untouched q c.

(** ** Values in arrays *)

(** element data(i, j) *)
Definition element (a : array) (i j : Z) : Z := a_base a + (i - 1) * a_s1 a + (j - 1) * a_s2 a.
Definition contiguous (a : array) : Prop := a_s1 a = 8 /\ a_s2 a = 8 * a_n1 a.
(** double [k] of row [row] of a table in an array, both counted from 0 *)
Definition double_at (a : array) (column_major : bool) (row k : Z) : Z :=
  if column_major then element a (row + 1) (k + 1) else element a (k + 1) (row + 1).
(** the [w] bytes of a value that begins with double [k] of row [row] *)
Definition value_of (m : mem) (a : array) (column_major : bool) (row k : Z) (w : nat) : list Z :=
  map (fun b => m (double_at a column_major row (k + Z.of_nat b / 8) + Z.of_nat b mod 8)) (seq 0 w).
