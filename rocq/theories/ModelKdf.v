(** Model of the HMAC, HKDF and xmd functions of src/signatures.cpp.  Every allocation succeeds here; failing malloc is modelled in ModelHeap.v.
    A C buffer written by a function is returned as a list; the pairs (code, bytes) hold the int return code and the bytes written. *)
From Coq Require Import ZArith List Bool.
From Verif Require Import ModelSha ModelScalar.
Import ListNotations.
Local Open Scope Z_scope.

(** signatures.cpp:14-63; after line 43 key_len <= 64 always holds; when the key was hashed the memcpy of lines 47 copies _key onto itself *)
Definition hkdf256_hmac (input key : list Z) : list Z :=
  let k := if 64 <? Z.of_nat (length key) then sha256 [key] else key in
  let k := k ++ repeat 0 (64 - length k) in
  let opad := map (fun x => Z.lxor 0x5C x) k in
  let ipad := map (fun x => Z.lxor 0x36 x) k in
  sha256 [opad ++ sha256 [ipad ++ input]].
(** signatures.cpp:65-78 *)
Definition hkdf256_extract (salt ikm : list Z) : list Z := hkdf256_hmac ikm salt.
(** signatures.cpp:110-138: iterations i, i+1, ..., N; n of them left; T the current block, out the bytes written so far *)
Fixpoint expand_loop (n : nat) (i : Z) (L : Z) (prk info T out : list Z) : Z * list Z :=
  match n with
  | O => if Z.of_nat (length out) =? L then (0, out) else (-5, out)
  | S n =>
      let T := if i =? 1 then hkdf256_hmac (info ++ [u8 i]) prk else hkdf256_hmac (T ++ info ++ [u8 i]) prk in
      let to_write := L - Z.of_nat (length out) in
      let to_write := if 32 <? to_write then 32 else to_write in
      if (to_write <=? 0) || (32 <? to_write) then (-4, out)
      else expand_loop n (i + 1) L prk info T (out ++ firstn (Z.to_nat to_write) T)
  end.
(** signatures.cpp:80-147; prk points to 32 bytes; the comparison infoLen < 0 of an unsigned value is never true *)
Definition hkdf256_expand (L : Z) (prk info : list Z) : Z * list Z :=
  if 255 * 32 <? L then (-1, [])
  else let N := (L + 31) / 32 in
    if (N <? 1) || (255 <? N) then (-3, []) else expand_loop (Z.to_nat N) 1 L (firstn 32 prk) info [] [].
(** signatures.cpp:149-164 *)
Definition hkdf256_extract_expand (outputLen : Z) (key salt info : list Z) : Z * list Z :=
  hkdf256_expand outputLen (hkdf256_extract salt key) info.

(** conversion of an integer to int: the representative in [-2^31, 2^31) *)
Definition s32 (x : Z) : Z := (x + 2 ^ 31) mod 2 ^ 32 - 2 ^ 31.
(** reading n bytes from a buffer, n converted to size_t: out of bounds unless 0 <= n <= size *)
Definition read_bytes (buf : list Z) (n : Z) : option (list Z) :=
  if (0 <=? n) && (n <=? Z.of_nat (length buf)) then Some (firstn (Z.to_nat n) buf) else None.
(** signatures.cpp:475-492, iterations i, i+1, ..., n left; out the bytes written so far (iteration i writes at offset 32(i-1)) *)
Fixpoint xmd_loop (n : nat) (i buf_len : Z) (b0 bi dst : list Z) (dstlen : Z) (out : list Z) : list Z :=
  match n with
  | O => out
  | S n =>
      let x := map (fun j => Z.lxor (nth j b0 0) (nth j bi 0)) (seq 0 32) in
      let bi := sha256 [x ++ [u8 i]; dst; [dstlen]] in
      let rem_after := buf_len - i * 32 in
      let copy_len := 32 + (if rem_after <? 0 then rem_after else 0) in
      xmd_loop n (i + 1) buf_len b0 bi dst dstlen (out ++ firstn (Z.to_nat copy_len) bi)
  end.
(** signatures.cpp:444-494; buf_len, in_len, dst_len are int; Ok (code, bytes written) or OutOfBounds *)
Definition xmd_sh256 (buf_len : Z) (input : list Z) (in_len : Z) (dst : list Z) (dst_len : Z) : outcome (Z * list Z) :=
  let ell := u32 (buf_len + 31) / 32 in
  if (buf_len <? 0) || (255 <? ell) || (255 <? dst_len) then Ok (-1, [])
  else
    match read_bytes input in_len, read_bytes dst dst_len with
    | Some m, Some d =>
        let b0 := sha256 [repeat 0 64; m; [u8 (Z.shiftr buf_len 8); Z.land buf_len 0xff; 0]; d; [u8 dst_len]] in
        Ok (0, xmd_loop (Z.to_nat ell) 1 buf_len b0 (repeat 0 32) d (u8 dst_len) [])
    | _, _ => OutOfBounds
    end.
