(** MD5 (RFC 1321), the digest eckit::MD5 computes: used only to run the model on real
    files (Golden.v).  The theorems hold for every digest function of 32 characters. *)
From Coq Require Import String.
From Verif Require Import Base Codec.
Open Scope Z_scope.

Definition md5_K : list Z :=
  [3614090360; 3905402710; 606105819; 3250441966; 4118548399; 1200080426; 2821735955; 4249261313;
    1770035416; 2336552879; 4294925233; 2304563134; 1804603682; 4254626195; 2792965006; 1236535329;
    4129170786; 3225465664; 643717713; 3921069994; 3593408605; 38016083; 3634488961; 3889429448;
    568446438; 3275163606; 4107603335; 1163531501; 2850285829; 4243563512; 1735328473; 2368359562;
    4294588738; 2272392833; 1839030562; 4259657740; 2763975236; 1272893353; 4139469664; 3200236656;
    681279174; 3936430074; 3572445317; 76029189; 3654602809; 3873151461; 530742520; 3299628645;
    4096336452; 1126891415; 2878612391; 4237533241; 1700485571; 2399980690; 4293915773; 2240044497;
    1873313359; 4264355552; 2734768916; 1309151649; 4149444226; 3174756917; 718787259; 3951481745].

Definition md5_S : list Z :=
  [7; 12; 17; 22; 7; 12; 17; 22; 7; 12; 17; 22; 7; 12; 17; 22; 5; 9; 14; 20; 5; 9; 14; 20; 5; 9;
    14; 20; 5; 9; 14; 20; 4; 11; 16; 23; 4; 11; 16; 23; 4; 11; 16; 23; 4; 11; 16; 23; 6; 10; 15;
    21; 6; 10; 15; 21; 6; 10; 15; 21; 6; 10; 15; 21].

Definition w32 (x : Z) : Z := Z.land x 4294967295.
Definition rotl (x s : Z) : Z := w32 (Z.lor (Z.shiftl x s) (Z.shiftr x (32 - s))).
Definition not32 (x : Z) : Z := 4294967295 - x.

(** round function and message index of step [i] *)
Definition md5_f (i b c d : Z) : Z :=
  if i <? 16 then Z.lor (Z.land b c) (Z.land (not32 b) d)
  else if i <? 32 then Z.lor (Z.land d b) (Z.land (not32 d) c)
  else if i <? 48 then Z.lxor b (Z.lxor c d)
  else Z.lxor c (Z.lor b (not32 d)).
Definition md5_g (i : Z) : Z :=
  if i <? 16 then i else if i <? 32 then (5 * i + 1) mod 16 else if i <? 48 then (3 * i + 5) mod 16 else (7 * i) mod 16.

Record md5_state := { ma : Z; mb_ : Z; mc : Z; md : Z }.

Fixpoint md5_steps (ks ss : list Z) (i : Z) (m : list Z) (x : md5_state) : md5_state :=
  match ks, ss with
  | k :: ks', s :: ss' =>
      let f := w32 (md5_f i (mb_ x) (mc x) (md x) + ma x + k + nth (Z.to_nat (md5_g i)) m 0) in
      md5_steps ks' ss' (i + 1) m {| ma := md x; mb_ := w32 (mb_ x + rotl f s); mc := mb_ x; md := mc x |}
  | _, _ => x
  end.

Definition md5_chunk (x : md5_state) (chunk : list Z) : md5_state :=
  let m := map (fun j => le_val (firstn 4 (skipn (4 * j) chunk))) (seq 0 16) in
  let y := md5_steps md5_K md5_S 0 m x in
  {| ma := w32 (ma x + ma y); mb_ := w32 (mb_ x + mb_ y); mc := w32 (mc x + mc y); md := w32 (md x + md y) |}.

Fixpoint md5_loop (fuel : nat) (x : md5_state) (s : list Z) : md5_state :=
  match fuel with
  | O => x
  | S f => match s with [] => x | _ => md5_loop f (md5_chunk x (firstn 64 s)) (skipn 64 s) end
  end.

Definition md5_padded (s : list Z) : list Z :=
  let n := List.length s in
  s ++ [128] ++ repeat 0 (Z.to_nat ((55 - Z.of_nat n) mod 64)) ++ le_bytes 8 (8 * Z.of_nat n).

Definition hex_digit (d : Z) : Z := if d <? 10 then 48 + d else 87 + d.
Definition hex (l : list Z) : list Z := flat_map (fun b => [hex_digit (b / 16); hex_digit (b mod 16)]) l.

Definition md5 (s : list Z) : list Z :=
  let p := md5_padded s in
  let x := md5_loop (S (List.length p)) {| ma := 1732584193; mb_ := 4023233417; mc := 2562383102; md := 271733878 |} p in
  hex (le_bytes 4 (ma x) ++ le_bytes 4 (mb_ x) ++ le_bytes 4 (mc x) ++ le_bytes 4 (md x)).

Lemma md5_length s : List.length (md5 s) = 32%nat.
Proof. reflexivity. Qed.

(** test vectors of RFC 1321 *)
Theorem md5_empty : md5 [] = str "d41d8cd98f00b204e9800998ecf8427e"%string.
Proof. vm_compute. reflexivity. Qed.
Theorem md5_abc : md5 (str "abc"%string) = str "900150983cd24fb0d6963f7d28e17f72"%string.
Proof. vm_compute. reflexivity. Qed.
Theorem md5_long : md5 (str "12345678901234567890123456789012345678901234567890123456789012345678901234567890"%string)
  = str "57edf4a22be3c955ac49da2e2107b67a"%string.
Proof. vm_compute. reflexivity. Qed.
