(** Model of namespace scalar (include/bls12-381/scalar.hpp): std::array<uint64_t,N> is a little-endian
    limb list of length N; byte arrays are lists of integers in [0,256). *)
From Coq Require Import ZArith List Bool.
From Verif Require Import ModelWord.
Import ListNotations.
Local Open Scope Z_scope.

(** A limb of an array; indices are in range where the model uses it without a bounds check. *)
Definition limb (s : list Z) (i : nat) : Z := nth i s 0.

(** ** Bytes *)
(** The eight bytes of a word, least significant first: static_cast<uint8_t>(in[i] >> k). *)
Definition word_bytes_le (w : Z) : list Z :=
  map (fun k => (w / 2 ^ k) mod 256) [0; 8; 16; 24; 32; 40; 48; 56].
(** scalar.hpp:19-29, 30-36 *)
Definition toBytesLE (s : list Z) : list Z := flat_map word_bytes_le s.
(** scalar.hpp:38-48, 49-55: limbs from the last to the first, each most significant byte first. *)
Definition toBytesBE (s : list Z) : list Z :=
  flat_map (fun w => map (fun k => (w / 2 ^ k) mod 256) [56; 48; 40; 32; 24; 16; 8; 0]) (rev s).
(** in[a+0] | in[a+1] << 8 | ... | in[a+7] << 56 *)
Definition word_of_le (b : list Z) (a : nat) : Z :=
  fold_left Z.lor (map (fun j => Z.shiftl (nth (a + j) b 0) (8 * Z.of_nat j)) (seq 0 8)) 0.
(** in[a-1] | in[a-2] << 8 | ... | in[a-8] << 56 *)
Definition word_of_be (b : list Z) (a : nat) : Z :=
  fold_left Z.lor (map (fun j => Z.shiftl (nth (a - 1 - j) b 0) (8 * Z.of_nat j)) (seq 0 8)) 0.
(** scalar.hpp:57-69, 70-76 *)
Definition fromBytesLE (n : nat) (b : list Z) : list Z :=
  map (fun i => word_of_le b (i * 8)) (seq 0 n).
(** scalar.hpp:78-90, 91-97 *)
Definition fromBytesBE (n : nat) (b : list Z) : list Z :=
  map (fun i => word_of_be b (n * 8 - i * 8)) (seq 0 n).

(** ** Addition and multiplication *)
(** Result of a routine that may throw std::invalid_argument or index outside an array. *)
Inductive outcome (A : Type) : Type := Ok (a : A) | Throw | OutOfBounds.
Arguments Ok {A}. Arguments Throw {A}. Arguments OutOfBounds {A}.

(** loop of scalar.hpp:111-114 *)
Fixpoint add_loop (n i : nat) (a b : list Z) (carry : Z) : list Z * Z :=
  match n with
  | O => ([], carry)
  | S n => let (ci, carry) := Add64 (limb a i) (limb b i) carry in
           let (c, carry) := add_loop n (S i) a b carry in (ci :: c, carry)
  end.
Fixpoint set_nth (l : list Z) (i : nat) (v : Z) : list Z :=
  match l, i with
  | [], _ => []
  | _ :: l, O => v :: l
  | x :: l, S i => x :: set_nth l i v
  end.
(** scalar.hpp:100-124; NC is the template parameter, NA and NB the lengths. [limb] returns 0 past the
    end, as the code's  i >= NA ? 0 : a[i]. *)
Definition scalar_add (NC : nat) (a b : list Z) : outcome (list Z) :=
  let N := Nat.max (length b) (length a) in
  if Nat.ltb NC N then Throw
  else
    let (lo, carry) := add_loop N 0 a b 0 in
    let c := lo ++ repeat 0 (NC - N) in
    if 0 <? carry then
      if Nat.leb NC (N + 1) then Throw else Ok (set_nth c (N + 1) carry)
    else Ok c.

(** inner loop of scalar.hpp:136-142 over j; None = index outside [buffer] *)
Fixpoint mul_row (n j i : nat) (a : list Z) (bi : Z) (buf : list Z) : option (list Z) :=
  match n with
  | O => Some buf
  | S n =>
      let (hi, lo) := Mul64 (limb a j) bi in
      if Nat.ltb (i + j + 1) (length buf) then
        let (b0, c) := Add64 (limb buf (i + j)) lo 0 in
        let buf := set_nth buf (i + j) b0 in
        let (b1, c) := Add64 (limb buf (i + j + 1)) hi c in
        mul_row n (S j) i a bi (set_nth buf (i + j + 1) b1)
      else None
  end.
(** outer loop of scalar.hpp:133-145 over i *)
Fixpoint mul_loop (n i : nat) (NC : nat) (a b c : list Z) : outcome (list Z) :=
  match n with
  | O => Ok c
  | S n =>
      match mul_row (length a) 0 i a (limb b i) (repeat 0 NC) with
      | None => OutOfBounds
      | Some buf =>
          match scalar_add NC c buf with
          | Ok c => mul_loop n (S i) NC a b c
          | Throw => Throw
          | OutOfBounds => OutOfBounds
          end
      end
  end.
(** scalar.hpp:127-147 *)
Definition scalar_multiply (NC : nat) (a b : list Z) : outcome (list Z) :=
  mul_loop (length b) 0 NC a b (repeat 0 NC).

(** ** Comparison, bits *)
(** scalar.hpp:150-165; [n] counts the limbs still to look at, from the top *)
Fixpoint cmp_loop (n : nat) (a b : list Z) : comparison :=
  match n with
  | O => Eq
  | S i => if limb a i <? limb b i then Lt
           else if limb b i <? limb a i then Gt else cmp_loop i a b
  end.
Definition scalar_cmp (a b : list Z) : comparison := cmp_loop (length a) a b.
(** scalar.hpp:168-179 *)
Definition scalar_equal (a b : list Z) : bool :=
  forallb (fun i => limb a i =? limb b i) (seq 0 (length a)).
(** std::countl_zero on a nonzero word *)
Definition countl_zero (w : Z) : Z := 63 - Z.log2 w.
(** scalar.hpp:182-193 *)
Fixpoint bitlen_loop (n : nat) (s : list Z) : Z :=
  match n with
  | O => 0
  | S i => if limb s i =? 0 then bitlen_loop i s
           else (Z.of_nat i + 1) * 64 - countl_zero (limb s i)
  end.
Definition bitLength (s : list Z) : Z := bitlen_loop (length s) s.
(** (s[i/64] >> (i%64) & 1) == 1 *)
Definition sbit (s : list Z) (i : nat) : bool :=
  Z.land (Z.shiftr (limb s (i / 64)) (Z.of_nat (i mod 64))) 1 =? 1.
(** scalar.hpp:196-214 *)
Definition rsh (s : list Z) (bits : Z) : list Z :=
  let nb := Z.to_nat (bits / 64) in
  let k := bits mod 64 in
  map (fun i =>
         let v := limb s (i + nb) in
         let v1 := limb s (i + nb + 1) in
         if k =? 0 then v
         else Z.lor (Z.shiftr v k) ((Z.shiftl v1 (64 - k)) mod W)) (seq 0 (length s)).

(** ** Square-and-multiply (scalar.hpp:250-312, cyclotomic 314-328), bits from the top *)
Fixpoint exp_loop {T} (sq : T -> T) (mul : T -> T -> T) (x : T) (s : list Z) (i : nat) (z : T) : T :=
  match i with
  | O => z
  | S i => let z := sq z in
           exp_loop sq mul x s i (if sbit s i then mul z x else z)
  end.
Definition gexp {T} (one : T) (sq : T -> T) (mul : T -> T -> T) (x : T) (s : list Z) : T :=
  exp_loop sq mul x s (Z.to_nat (bitLength s)) one.

(** ** Double-and-add (scalar.hpp:330-362), bits from the bottom *)
Fixpoint scale_loop {T} (dbl : T -> T) (add : T -> T -> T) (s : list Z) (n i : nat) (q nn : T) : T :=
  match n with
  | O => q
  | S n => scale_loop dbl add s n (S i) (if sbit s i then add q nn else q) (dbl nn)
  end.
Definition gscale {T} (zero : T) (dbl : T -> T) (add : T -> T -> T) (x : T) (s : list Z) : T :=
  scale_loop dbl add s (Z.to_nat (bitLength s)) 0 zero x.
