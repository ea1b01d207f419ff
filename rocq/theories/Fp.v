(** IEEE-754 binary32/binary64 on bit patterns.

    The C++ code compares doubles, subtracts and adds them, converts them to and
    from integers and narrows them to float.  This file defines those operations
    on bit patterns.  A finite double is [s * m * 2^(e)]; multiplied by 2^1074 it
    is an integer ([d2z]), so comparison and exact sums are integer operations and
    rounding is one integer division. *)
From Verif Require Import Base.

(** ** Formats *)

(** [mb] explicit mantissa bits, [eb] exponent bits. *)
Record fmt := { mb : Z; eb : Z }.
Definition f64 : fmt := {| mb := 52; eb := 11 |}.
Definition f32 : fmt := {| mb := 23; eb := 8 |}.

(** exponent of the least significant bit of a subnormal: -1074 / -149 *)
Definition emin (f : fmt) : Z := 2 - 2 ^ (eb f - 1) - mb f.
(** magnitude pattern of infinity *)
Definition inf_mag (f : fmt) : Z := (2 ^ eb f - 1) * 2 ^ mb f.
Definition sign_bit (f : fmt) : Z := 2 ^ (mb f + eb f).
Definition negb_ (f : fmt) (x : Z) : bool := sign_bit f <=? x.
Definition mag (f : fmt) (x : Z) : Z := if negb_ f x then x - sign_bit f else x.
Definition is_nan (f : fmt) (x : Z) : bool := inf_mag f <? mag f x.
Definition is_inf (f : fmt) (x : Z) : bool := mag f x =? inf_mag f.
Definition is_fin (f : fmt) (x : Z) : bool := mag f x <? inf_mag f.

(** Value of a finite magnitude, in units of [2^emin]. *)
Definition mag_val (f : fmt) (m : Z) : Z :=
  let e := m / 2 ^ mb f in
  let q := m mod 2 ^ mb f in
  if e =? 0 then q else (q + 2 ^ mb f) * 2 ^ (e - 1).

(** Signed value of a finite pattern, in units of [2^emin]. *)
Definition val (f : fmt) (x : Z) : Z :=
  if negb_ f x then - mag_val f (mag f x) else mag_val f (mag f x).

(** ** Rounding to nearest, ties to even *)

Definition rne (m k : Z) : Z :=
  let q := m / 2 ^ k in
  let r := m mod 2 ^ k in
  let h := 2 ^ (k - 1) in
  if r <? h then q else if h <? r then q + 1 else if Z.even q then q else q + 1.

(** Magnitude pattern nearest to [m * 2^e], [m >= 0]; overflow gives infinity. *)
Definition round_mag (f : fmt) (m e : Z) : Z :=
  if m =? 0 then 0
  else
    let e' := Z.max (e + Z.log2 m - mb f) (emin f) in
    let q := if e' <=? e then m * 2 ^ (e - e') else rne m (e' - e) in
    Z.min ((e' - emin f) * 2 ^ mb f + q) (inf_mag f).

(** Pattern nearest to [z * 2^e]; an exact zero is +0. *)
Definition round (f : fmt) (z e : Z) : Z :=
  if z <? 0 then sign_bit f + round_mag f (- z) e else round_mag f z e.

(** ** Doubles *)

Definition dneg (x : Z) : Z := if negb_ f64 x then x - 2 ^ 63 else x + 2 ^ 63.
Definition qnan : Z := 9221120237041090560. (* 0x7ff8000000000000 *)

(** Order key: larger value, larger key; both zeros have key 0. *)
Definition key (f : fmt) (x : Z) : Z := if negb_ f x then - mag f x else mag f x.

(** C++ [==], [<] on doubles and floats. *)
Definition feq (f : fmt) (x y : Z) : bool :=
  negb (is_nan f x) && negb (is_nan f y) && (key f x =? key f y).
Definition flt (f : fmt) (x y : Z) : bool :=
  negb (is_nan f x) && negb (is_nan f y) && (key f x <? key f y).

Definition deq := feq f64.
Definition dlt := flt f64.

(** C++ [x + y] on doubles (round to nearest even).  The payload of a NaN result
    is not modelled: any NaN result is [qnan]. *)
Definition dadd (x y : Z) : Z :=
  if is_nan f64 x || is_nan f64 y then qnan
  else if is_inf f64 x then
         if is_inf f64 y && negb (x =? y) then qnan else x
       else if is_inf f64 y then y
            else
              let z := val f64 x + val f64 y in
              if z =? 0 then
                if negb_ f64 x && negb_ f64 y then 2 ^ 63 else 0
              else round f64 z (-1074).

Definition dsub (x y : Z) : Z := dadd x (dneg y).

(** Conversion int64 -> double (rounds above 2^53). *)
Definition z2d (n : Z) : Z := round f64 n 0.

(** Conversion double -> integer truncates towards zero; the C++ conversion is
    undefined when the result does not fit the target type. *)
Definition d2z_trunc (x : Z) : option Z :=
  if is_fin f64 x then Some (Z.quot (val f64 x) (2 ^ 1074)) else None.

Definition d2int (lo hi : Z) (x : Z) : outcome Z :=
  match d2z_trunc x with
  | Some n => if (lo <=? n) && (n <=? hi) then Ok n else UB
  | None => UB
  end.

Definition d2i64 := d2int (- 2 ^ 63) (2 ^ 63 - 1).
Definition d2i32 := d2int (- 2 ^ 31) (2 ^ 31 - 1).
Definition d2u64 := d2int 0 (2 ^ 64 - 1).
Definition d2u8 := d2int 0 255.
Definition d2u16 := d2int 0 65535.

(** Conversion double -> float, round to nearest even.  The C++ conversion of a
    finite double beyond the float range is formally undefined; IEEE hardware
    gives infinity, which is what is modelled.  NaN stays NaN (payload truncated,
    quiet bit set). *)
Definition d2f (x : Z) : Z :=
  let s := if negb_ f64 x then 2 ^ 31 else 0 in
  let m := mag f64 x in
  if is_nan f64 x then
    s + (inf_mag f32 + Z.lor ((m mod 2 ^ 52) / 2 ^ 29) (2 ^ 22))
  else if is_inf f64 x then s + inf_mag f32
       else s + round_mag f32 (mag_val f64 m) (-1074).

(** Conversion float -> double (exact). *)
Definition f2d (x : Z) : Z :=
  let s := if negb_ f32 x then 2 ^ 63 else 0 in
  let m := mag f32 x in
  if is_nan f32 x then
    s + (inf_mag f64 + Z.lor ((m mod 2 ^ 23) * 2 ^ 29) (2 ^ 51))
  else if is_inf f32 x then s + inf_mag f64
       else s + round_mag f64 (mag_val f32 m) (-149).

(** Well-formed patterns. *)
Definition is64 (x : Z) : Prop := 0 <= x < 2 ^ 64.
Definition is32 (x : Z) : Prop := 0 <= x < 2 ^ 32.
Definition is64b (x : Z) : bool := (0 <=? x) && (x <? 2 ^ 64).
