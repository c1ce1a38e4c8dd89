(** Array-level model of the routines whose indices are computed at run time.  Every array is a list of its declared size and every
    element access goes through [rd] or [wr], memcpy and memset through [rd_range] and [wr_range]; an index outside the array gives
    None.  Indices are integers (a negative index is outside), loops run over the index values of the source.  Output and scratch
    arrays come in with arbitrary (indeterminate) contents.  The other model files describe the same routines by their results. *)
From Coq Require Import ZArith List Bool.
From Verif Require Import ModelWord ModelScalar ModelPrim ModelFp ModelTower ModelDiv ModelCurve ModelSha ModelKdf ModelPairing PortArith.
Import ListNotations.
Local Open Scope Z_scope.

Notation "x <- e ;; k" := (match e with Some x => k | None => None end) (at level 100, e at next level, right associativity).
(** l[i] *)
Definition rd {A} (l : list A) (i : Z) : option A := if i <? 0 then None else nth_error l (Z.to_nat i).
(** n elements from offset off *)
Definition rd_range {A} (l : list A) (off n : Z) : option (list A) :=
  if (0 <=? off) && (0 <=? n) && (off + n <=? Z.of_nat (length l)) then Some (firstn (Z.to_nat n) (skipn (Z.to_nat off) l)) else None.
(** the elements from offset off overwritten by w *)
Definition patch {A} (l : list A) (off : nat) (w : list A) : list A := firstn off l ++ w ++ skipn (off + length w) l.
Definition wr_range {A} (l : list A) (off : Z) (w : list A) : option (list A) :=
  if (0 <=? off) && (off + Z.of_nat (length w) <=? Z.of_nat (length l)) then Some (patch l (Z.to_nat off) w) else None.
(** l[i] = v *)
Definition wr {A} (l : list A) (i : Z) (v : A) : option (list A) := wr_range l i [v].
(** for(x = i; n times; x++) *)
Fixpoint for_up {S} (n : nat) (i : Z) (body : Z -> S -> option S) (s : S) : option S :=
  match n with O => Some s | Datatypes.S n => s <- body i s ;; for_up n (i + 1) body s end.
(** for(x = n - 1; x >= 0; x--) *)
Fixpoint for_down {S} (n : nat) (body : Z -> S -> option S) (s : S) : option S :=
  match n with O => Some s | Datatypes.S n => s <- body (Z.of_nat n) s ;; for_down n body s end.

(** a shift of a w-bit word by a variable amount: undefined unless 0 <= k < w *)
Definition shl (w x k : Z) : option Z := if (0 <=? k) && (k <? w) then Some ((Z.shiftl x k) mod 2 ^ w) else None.
Definition shr (w x k : Z) : option Z := if (0 <=? k) && (k <? w) then Some (Z.shiftr x k) else None.
(** an unsigned division: undefined for divisor 0 *)
Definition udiv (x y : Z) : option Z := if y =? 0 then None else Some (x / y).

(** * scalar.hpp, N = length of the limb array *)
(** scalar.hpp:19-29 *)
Definition c_toBytesLE (inp out : list Z) : option (list Z) :=
  for_up (length inp) 0 (fun i => for_up 8 0 (fun j out => w <- rd inp i ;; wr out (i * 8 + j) ((w / 2 ^ (8 * j)) mod 256))) out.
(** scalar.hpp:38-48 *)
Definition c_toBytesBE (inp out : list Z) : option (list Z) :=
  let N := Z.of_nat (length inp) in
  for_up (length inp) 0 (fun i => for_up 8 0 (fun j out => w <- rd inp (N - 1 - i) ;; wr out (i * 8 + j) ((w / 2 ^ (56 - 8 * j)) mod 256))) out.
(** in[a+0] | in[a+1] << 8 | ...; the j-th byte at position pos j *)
Definition c_word (b : list Z) (pos : Z -> Z) : option Z :=
  for_up 8 0 (fun j acc => x <- rd b (pos j) ;; Some (Z.lor acc (Z.shiftl x (8 * j)))) 0.
(** scalar.hpp:57-69 *)
Definition c_fromBytesLE (b out : list Z) : option (list Z) :=
  for_up (length out) 0 (fun i out => w <- c_word b (fun j => i * 8 + j) ;; wr out i w) out.
(** scalar.hpp:78-90 *)
Definition c_fromBytesBE (b out : list Z) : option (list Z) :=
  let N := Z.of_nat (length out) in
  for_up (length out) 0 (fun i out => w <- c_word b (fun j => N * 8 - i * 8 - 1 - j) ;; wr out i w) out.
(** scalar.hpp:100-124; None inside Ok-or-Throw result means out of bounds; c0 is the array after memset *)
Definition c_add (NC : nat) (a b : list Z) : option (outcome (list Z)) :=
  let N := Nat.max (length b) (length a) in
  if Nat.ltb NC N then Some Throw
  else
    cc <- for_up N 0 (fun i cc =>
      x <- (if Z.of_nat (length a) <=? i then Some 0 else rd a i) ;;
      y <- (if Z.of_nat (length b) <=? i then Some 0 else rd b i) ;;
      let (ci, carry) := Add64 x y (snd cc) in
      c <- wr (fst cc) i ci ;; Some (c, carry)) (repeat 0 NC, 0) ;;
    if 0 <? snd cc then
      if Nat.leb NC (N + 1) then Some Throw
      else c <- wr (fst cc) (Z.of_nat N + 1) (snd cc) ;; Some (Ok c)
    else Some (Ok (fst cc)).
(** scalar.hpp:150-165 *)
Fixpoint c_cmp (n : nat) (a b : list Z) : option comparison :=
  match n with
  | O => Some Eq
  | S i => x <- rd a (Z.of_nat i) ;; y <- rd b (Z.of_nat i) ;;
           if x <? y then Some Lt else if y <? x then Some Gt else c_cmp i a b
  end.
(** scalar.hpp:168-179 *)
Definition c_equal (a b : list Z) : option bool :=
  (fix go n i := match n with
     | O => Some true
     | S n => x <- rd a i ;; y <- rd b i ;; if x =? y then go n (i + 1) else Some false
     end) (length a) 0.
(** scalar.hpp:182-193 *)
Fixpoint c_bitlen (n : nat) (s : list Z) : option Z :=
  match n with
  | O => Some 0
  | S i => x <- rd s (Z.of_nat i) ;; if x =? 0 then c_bitlen i s else Some ((Z.of_nat i + 1) * 64 - countl_zero x)
  end.
Definition c_bitLength (s : list Z) : option Z := c_bitlen (length s) s.
(** scalar.hpp:196-214 *)
Definition c_rsh (out inp : list Z) (bits : Z) : option (list Z) :=
  let N := Z.of_nat (length inp) in
  let nb := bits / 64 in
  let k := bits mod 64 in
  for_up (length inp) 0 (fun i out =>
    v <- (if N <=? i + nb then Some 0 else rd inp (i + nb)) ;;
    v1 <- (if N <=? i + nb + 1 then Some 0 else rd inp (i + nb + 1)) ;;
    r <- (if k =? 0 then Some v else lo <- shr 64 v k ;; hi <- shl 64 v1 (64 - k) ;; Some (Z.lor lo hi)) ;;
    wr out i r) out.
(** (s[i/64] >> (i%64) & 1) == 1 *)
Definition c_bit (s : list Z) (i : Z) : option bool :=
  w <- rd s (i / 64) ;; x <- shr 64 w (i mod 64) ;; Some (Z.land x 1 =? 1).
(** scalar.hpp:250-328 *)
Definition c_exp {T} (one : T) (sq : T -> T) (mul : T -> T -> T) (x : T) (s : list Z) : option T :=
  l <- c_bitLength s ;;
  for_down (Z.to_nat l) (fun i z => let z := sq z in b <- c_bit s i ;; Some (if b : bool then mul z x else z)) one.
(** scalar.hpp:330-362 *)
Definition c_scale {T} (zero : T) (dbl : T -> T) (add : T -> T -> T) (x : T) (s : list Z) : option T :=
  l <- c_bitLength s ;;
  qn <- for_up (Z.to_nat l) 0 (fun i qn => b <- c_bit s i ;; Some (if b : bool then add (fst qn) (snd qn) else fst qn, dbl (snd qn))) (zero, x) ;;
  Some (fst qn).

(** * scalar.cpp:48-339: pointers are (array, offset) *)
(** scalar.cpp:51-71, c = a *)
Definition c_lshb (a : list Z) (size : nat) (bits : Z) : option (list Z * Z) :=
  for_up size 0 (fun i ac => x <- rd (fst ac) i ;;
    hi <- shr 64 x (64 - bits) ;; lo <- shl 64 x bits ;;
    let r := Z.land hi (RLC_MASK bits) in
    a <- wr (fst ac) i (Z.lor lo (snd ac)) ;; Some (a, r)) (a, 0).
(** scalar.cpp:73-92, c = a; both loops run from the values of size and digits as ints *)
Definition c_lshd (b : list Z) (size digits : Z) : option (list Z) :=
  b <- for_up (Z.to_nat (size - digits)) 0 (fun i b => x <- rd b (size - 1 - digits - i) ;; wr b (size - 1 - i) x) b ;;
  for_up (Z.to_nat digits) 0 (fun i b => wr b i 0) b.
(** scalar.cpp:94-110; r in {-1, 0, 1} as a comparison *)
Definition c_dvcmp (a b : list Z) (size : nat) : option comparison :=
  for_down size (fun i r => x <- rd a i ;; y <- rd b i ;;
    Some (match r with Eq => (if x =? y then Eq else if y <? x then Gt else Lt) | _ => r end)) Eq.
(** scalar.cpp:112-127 with c = a = the part of arr from off *)
Definition c_subn (arr : list Z) (off : Z) (b : list Z) (size : nat) : option (list Z * Z) :=
  for_up size 0 (fun i ac => x <- rd (fst ac) (off + i) ;; y <- rd b i ;;
    let diff := (x - y) mod W in
    let r0 := (diff - snd ac) mod W in
    let carry := if (x <? y) || (negb (snd ac =? 0) && (diff =? 0)) then 1 else 0 in
    a <- wr (fst ac) (off + i) r0 ;; Some (a, carry)) (arr, 0).
(** scalar.cpp:129-146, c = a *)
Definition c_rshd (b : list Z) (size digits : Z) : option (list Z) :=
  b <- for_up (Z.to_nat (size - digits)) 0 (fun i b => x <- rd b (digits + i) ;; wr b i x) b ;;
  for_up (Z.to_nat (size - Z.max 0 (size - digits))) (Z.max 0 (size - digits)) (fun i b => wr b i 0) b.
(** scalar.cpp:148-159 *)
Definition c_mul1 (c a : list Z) (digit : Z) (size : nat) : option (list Z * Z) :=
  for_up size 0 (fun i cc => x <- rd a i ;;
    let r1 := (x * digit) / W in
    let r0 := (x * digit) mod W in
    let v := (r0 + snd cc) mod W in
    c <- wr (fst cc) i v ;; Some (c, (r1 + (if v <? snd cc then 1 else 0)) mod W)) (c, 0).
(** the same with c = a *)
Definition c_mul1_inplace (a : list Z) (digit : Z) (size : nat) : option (list Z * Z) :=
  for_up size 0 (fun i cc => x <- rd (fst cc) i ;;
    let r1 := (x * digit) / W in
    let r0 := (x * digit) mod W in
    let v := (r0 + snd cc) mod W in
    c <- wr (fst cc) i v ;; Some (c, (r1 + (if v <? snd cc then 1 else 0)) mod W)) (a, 0).
(** scalar.cpp:161-178 with c = a = the part of arr from off; once the carry is 0 the second loop rewrites each limb with itself *)
Definition c_sub1 (arr : list Z) (off : Z) (digit : Z) (size : nat) : option (list Z * Z) :=
  for_up size 0 (fun i ac => x <- rd (fst ac) (off + i) ;;
    if snd ac =? 0 then a <- wr (fst ac) (off + i) x ;; Some (a, 0)
    else let r0 := (x - snd ac) mod W in
         a <- wr (fst ac) (off + i) r0 ;; Some (a, if x <? r0 then 1 else 0)) (arr, digit).
(** scalar.cpp:180-197 with c = a = the part of arr from off *)
Definition c_addn (arr : list Z) (off : Z) (b : list Z) (size : nat) : option (list Z * Z) :=
  for_up size 0 (fun i ac => x <- rd (fst ac) (off + i) ;; y <- rd b i ;;
    let r0 := (x + y) mod W in
    let c0 := if r0 <? x then 1 else 0 in
    let r1 := (r0 + snd ac) mod W in
    let c1 := if r1 <? r0 then 1 else 0 in
    a <- wr (fst ac) (off + i) r1 ;; Some (a, Z.lor c0 c1)) (arr, 0).
(** scalar.cpp:199-216 *)
Definition c_add1 (arr : list Z) (off : Z) (digit : Z) (size : nat) : option (list Z * Z) :=
  for_up size 0 (fun i ac => x <- rd (fst ac) (off + i) ;;
    if snd ac =? 0 then a <- wr (fst ac) (off + i) x ;; Some (a, 0)
    else let r0 := (x + snd ac) mod W in
         a <- wr (fst ac) (off + i) r0 ;; Some (a, if r0 <? snd ac then 1 else 0)) (arr, digit).
(** scalar.cpp:218-239 *)
Definition c_rshb (c a : list Z) (size : nat) (bits : Z) : option (list Z * Z) :=
  for_down size (fun i cc => x <- rd a i ;;
    lo <- shr 64 x bits ;; hi <- shl 64 (snd cc) ((64 - bits) mod 64) ;;
    c <- wr (fst cc) i (Z.lor lo hi) ;;
    Some (c, Z.land x (RLC_MASK bits))) (c, 0).
(** scalar.cpp:272-276; the loop condition reads both arrays; at most [fuel] rounds, more are reported as None too *)
Fixpoint c_div_top (fuel : nat) (a b c : list Z) (sa : nat) (d : Z) : option (list Z * list Z) :=
  match fuel with
  | O => None
  | S fuel => r <- c_dvcmp a b sa ;;
      match r with
      | Lt => Some (a, c)
      | _ => x <- rd c d ;; c <- wr c d ((x + 1) mod W) ;; ac <- c_subn a 0 b sa ;; c_div_top fuel (fst ac) b c sa d
      end
  end.
(** scalar.cpp:299-313, after the increment of line 298; t1 and t2 are arrays of 3 *)
Fixpoint c_div_qhat (fuel : nat) (a b c t1 t2 : list Z) (i t : Z) : option (list Z * list Z * list Z) :=
  match fuel with
  | O => None
  | S fuel =>
      q <- rd c (i - t - 1) ;; c <- wr c (i - t - 1) ((q - 1) mod W) ;;
      x <- (if t - 1 <? 0 then Some 0 else rd b (t - 1)) ;; t1 <- wr t1 0 x ;;
      x <- rd b t ;; t1 <- wr t1 1 x ;;
      q <- rd c (i - t - 1) ;; m <- c_mul1_inplace t1 q 2 ;; t1 <- wr (fst m) 2 (snd m) ;;
      x <- (if i - 2 <? 0 then Some 0 else rd a (i - 2)) ;; t2 <- wr t2 0 x ;;
      x <- (if i - 1 <? 0 then Some 0 else rd a (i - 1)) ;; t2 <- wr t2 1 x ;;
      x <- rd a i ;; t2 <- wr t2 2 x ;;
      r <- c_dvcmp t1 t2 3 ;;
      match r with Gt => c_div_qhat fuel a b c t1 t2 i t | _ => Some (c, t1, t2) end
  end.
(** the arrays a, c, d, t1, t2 *)
Record dst := mkD { D_a : list Z; D_c : list Z; D_d : list Z; D_t1 : list Z; D_t2 : list Z }.
(** scalar.cpp:282-335, one round; b, sa, sb, t are not changed *)
Definition c_div_step (sa sb : nat) (b : list Z) (i : Z) (s : dst) : option dst :=
  let t := Z.of_nat sb - 1 in
  if Z.of_nat sa <? i then Some s else
  let k := i - t - 1 in
  x <- rd (D_a s) i ;; y <- rd b t ;;
  q <- (if x =? y then Some (RLC_MASK 64) else x1 <- rd (D_a s) (i - 1) ;; udiv (x * W + x1) y) ;;
  c <- wr (D_c s) k ((q + 1) mod W) ;;
  ctt <- c_div_qhat 8 (D_a s) b c (D_t1 s) (D_t2 s) i t ;;
  let c := fst (fst ctt) in
  q <- rd c k ;;
  m <- c_mul1 (D_d s) b q sb ;;
  d <- (if snd m =? 0 then Some (fst m) else wr (fst m) (Z.of_nat sb) (snd m)) ;;
  let sd := if snd m =? 0 then sb else S sb in
  ac <- c_subn (D_a s) k d sd ;;
  let sdk := Z.of_nat sd + k in
  ac <- (if 0 <? Z.of_nat sa - sdk then c_sub1 (fst ac) sdk (snd ac) (Z.to_nat (Z.of_nat sa - sdk)) else Some ac) ;;
  if snd ac =? 0 then Some (mkD (fst ac) c d (snd (fst ctt)) (snd ctt))
  else
    let sdk := Z.of_nat sb + k in
    ac <- c_addn (fst ac) k b sb ;;
    ac <- c_add1 (fst ac) sdk (snd ac) (Z.to_nat (Z.of_nat sa - sdk)) ;;
    q <- rd c k ;; c <- wr c k ((q - 1) mod W) ;;
    Some (mkD (fst ac) c d (snd (fst ctt)) (snd ctt)).
(** for(i = n; i >= t + 1; i--): m rounds left, i = t + m *)
Fixpoint c_div_loop (m : nat) (sa sb : nat) (b : list Z) (s : dst) : option dst :=
  match m with O => Some s | S m' => s <- c_div_step sa sb b (Z.of_nat sb - 1 + Z.of_nat m) s ;; c_div_loop m' sa sb b s end.
(** a[sa++] = carry *)
Definition c_append (a : list Z) (sa : nat) (carry : Z) : option (list Z * nat) :=
  if carry =? 0 then Some (a, sa) else a <- wr a (Z.of_nat sa) carry ;; Some (a, S sa).
(** scalar.cpp:236-339; t1 t2 uninitialised; returns the arrays c and d *)
Definition c_divn_low (c d a : list Z) (sa : nat) (b : list Z) (sb : nat) (t1 t2 : list Z) : option (list Z * list Z) :=
  top <- rd b (Z.of_nat sb - 1) ;;
  let norm := (64 - clz64 top) mod 64 in
  let norm' := if norm <? 63 then 63 - norm else 0 in
  ap <- (if norm <? 63 then l <- c_lshb a sa norm' ;; c_append (fst l) sa (snd l) else Some (a, sa)) ;;
  bp <- (if norm <? 63 then l <- c_lshb b sb norm' ;; c_append (fst l) sb (snd l) else Some (b, sb)) ;;
  let (a, sa) := ap : list Z * nat in
  let (b, sb) := bp : list Z * nat in
  let n := Z.of_nat sa - 1 in
  let t := Z.of_nat sb - 1 in
  b <- c_lshd b (Z.of_nat sb + (n - t)) (n - t) ;;
  ac <- c_div_top 8 a b c sa (n - t) ;;
  b <- c_rshd b (Z.of_nat sb + (n - t)) (n - t) ;;
  s <- c_div_loop (Z.to_nat (n - t)) sa sb b (mkD (fst ac) (snd ac) d t1 t2) ;;
  dc <- c_rshb (D_d s) (D_a s) sb norm' ;;
  Some (D_c s, fst dc).
(** scalar.hpp:220-239: four arrays of N+2 limbs; t1, t2 the uninitialised locals *)
Definition c_divn_safe (c d a b t1 t2 : list Z) : option (list Z * list Z) :=
  let N := length a in
  let M := length b in
  let z := repeat 0 (N + 2) in
  src <- rd_range a 0 (Z.of_nat N) ;; dividend <- wr_range z 0 src ;;
  src <- rd_range b 0 (Z.of_nat M) ;; modulus <- wr_range z 0 src ;;
  qr <- c_divn_low z z dividend N modulus M t1 t2 ;;
  src <- rd_range (fst qr) 0 (Z.of_nat N) ;; c <- wr_range c 0 src ;;
  src <- rd_range (snd qr) 0 (Z.of_nat M) ;; d <- wr_range d 0 src ;;
  Some (c, d).

(** * g.cpp:472-531; 1236-1295 (weightedSum), over the operations of the class; sh the local array [shifted] *)
Section WS.
Context {T : Type} (o : fops T).
Definition c_ws_width (n : Z) : Z := if 32 <=? n then (64 - countl_zero n) / 3 + 2 else 3.
Definition c_ws_window (c bucketSize : Z) (points : list (jac T)) (scalars : list (list Z)) (sh : list Z) (j : Z) (bucket : list (jac T))
  : option (jac T * list (jac T)) :=
  bucket <- for_up (Z.to_nat bucketSize) 0 (fun i bk => wr bk i (j_zero o)) bucket ;;
  bucket <- for_up (Nat.min (length scalars) (length points)) 0 (fun i bk =>
     s <- rd scalars i ;; sh <- c_rsh sh s (c * j) ;; x <- rd sh 0 ;;
     let index := Z.land bucketSize x in
     if index =? 0 then Some bk
     else q <- rd bk (index - 1) ;; p <- rd points i ;; wr bk (index - 1) (j_add o q p)) bucket ;;
  r <- for_down (Z.to_nat bucketSize) (fun i as_ => q <- rd bucket i ;;
     let sum := j_add o (snd as_) q in Some (j_add o (fst as_) sum, sum)) (j_zero o, j_zero o) ;;
  Some (fst r, bucket).
Definition c_weightedSum (points : list (jac T)) (scalars : list (list Z)) (sh : list Z) (bucket0 : Z -> list (jac T)) : option (jac T) :=
  let c := c_ws_width (Z.min (Z.of_nat (length scalars)) (Z.of_nat (length points))) in
  (* 1<<c on int *)
  size <- (if (0 <=? c) && (c <? 31) then Some (2 ^ c) else None) ;;
  let bucketSize := size - 1 in
  nw <- udiv 255 c ;;
  let windowsSize := nw + 1 in
  wb <- for_up (Z.to_nat windowsSize) 0 (fun j wb =>
     ab <- c_ws_window c bucketSize points scalars sh j (snd wb) ;; Some (fst wb ++ [fst ab], snd ab)) ([], bucket0 bucketSize) ;;
  for_down (length (fst wb)) (fun i acc =>
     acc <- for_up (Z.to_nat c) 0 (fun _ acc => Some (j_dbl o acc)) acc ;; w <- rd (fst wb) i ;; Some (j_add o acc w)) (j_zero o).
End WS.

(** * sha256.cpp; m_data has 64 bytes, m_state 8 words *)
(** sha256.cpp:90-94, 96-100, with the array m[64] *)
Definition c_schedule (d m : list Z) : option (list Z) :=
  m <- for_up 16 0 (fun i m =>
    let j := 4 * i in
    a <- rd d j ;; b <- rd d (j + 1) ;; c <- rd d (j + 2) ;; e <- rd d (j + 3) ;;
    wr m i (Z.lor (Z.lor (Z.lor (u32 (Z.shiftl a 24)) (Z.shiftl b 16)) (Z.shiftl c 8)) e)) m ;;
  for_up 48 16 (fun k m =>
    a <- rd m (k - 2) ;; b <- rd m (k - 7) ;; c <- rd m (k - 15) ;; e <- rd m (k - 16) ;;
    wr m k (u32 (sha_sig1 a + b + sha_sig0 c + e))) m.
(** sha256.cpp:107-128 *)
Definition c_round (m : list Z) (i : Z) (s : list Z) : option (list Z) :=
  s0 <- rd s 0 ;; s1 <- rd s 1 ;; s2 <- rd s 2 ;; s3 <- rd s 3 ;; s4 <- rd s 4 ;; s5 <- rd s 5 ;; s6 <- rd s 6 ;; s7 <- rd s 7 ;;
  mi <- rd m i ;; ki <- rd sha_K i ;;
  let maj := sha_majority s0 s1 s2 in
  let xorA := Z.lxor (Z.lxor (sha_rotr s0 2) (sha_rotr s0 13)) (sha_rotr s0 22) in
  let ch := sha_choose s4 s5 s6 in
  let xorE := Z.lxor (Z.lxor (sha_rotr s4 6) (sha_rotr s4 11)) (sha_rotr s4 25) in
  let sum := u32 (mi + ki + s7 + ch + xorE) in
  let newA := u32 (xorA + maj + sum) in
  let newE := u32 (s3 + sum) in
  x <- rd s 6 ;; s <- wr s 7 x ;; x <- rd s 5 ;; s <- wr s 6 x ;; x <- rd s 4 ;; s <- wr s 5 x ;; s <- wr s 4 newE ;;
  x <- rd s 2 ;; s <- wr s 3 x ;; x <- rd s 1 ;; s <- wr s 2 x ;; x <- rd s 0 ;; s <- wr s 1 x ;; wr s 0 newA.
(** sha256.cpp:85-134; m and st are the uninitialised locals *)
Definition c_transform (m st : list Z) (s : sha) : option sha :=
  m <- c_schedule (m_data s) m ;;
  st <- for_up 8 0 (fun i st => x <- rd (m_state s) i ;; wr st i x) st ;;
  st <- for_up 64 0 (c_round m) st ;;
  ms <- for_up 8 0 (fun i ms => x <- rd ms i ;; y <- rd st i ;; wr ms i (u32 (x + y))) (m_state s) ;;
  Some (mkSha (m_data s) (m_blocklen s) (m_bitlen s) ms).
(** sha256.cpp:21-35 *)
Definition c_update (m st : list Z) (s : sha) (data : list Z) : option sha :=
  for_up (length data) 0 (fun i s =>
    x <- rd data i ;; d <- wr (m_data s) (m_blocklen s) x ;;
    let s := mkSha d (u32 (m_blocklen s + 1)) (m_bitlen s) (m_state s) in
    if m_blocklen s =? 64 then
      s <- c_transform m st s ;; Some (mkSha (m_data s) 0 (u64 (m_bitlen s + 512)) (m_state s))
    else Some s) s.
(** sha256.cpp:136-165 *)
Definition c_pad (m st : list Z) (s : sha) : option sha :=
  let e := if m_blocklen s <? 56 then 56 else 64 in
  d <- wr (m_data s) (m_blocklen s) 0x80 ;;
  d <- for_up (Z.to_nat (e - (m_blocklen s + 1))) (m_blocklen s + 1) (fun i d => wr d i 0) d ;;
  let s := mkSha d (m_blocklen s) (m_bitlen s) (m_state s) in
  s <- (if 56 <=? m_blocklen s then
          s <- c_transform m st s ;; d <- wr_range (m_data s) 0 (repeat 0 56) ;; Some (mkSha d (m_blocklen s) (m_bitlen s) (m_state s))
        else Some s) ;;
  let bl := u64 (m_bitlen s + m_blocklen s * 8) in
  d <- wr (m_data s) 63 (u8 bl) ;; d <- wr d 62 (u8 (Z.shiftr bl 8)) ;; d <- wr d 61 (u8 (Z.shiftr bl 16)) ;;
  d <- wr d 60 (u8 (Z.shiftr bl 24)) ;; d <- wr d 59 (u8 (Z.shiftr bl 32)) ;; d <- wr d 58 (u8 (Z.shiftr bl 40)) ;;
  d <- wr d 57 (u8 (Z.shiftr bl 48)) ;; d <- wr d 56 (u8 (Z.shiftr bl 56)) ;;
  c_transform m st (mkSha d (m_blocklen s) bl (m_state s)).
(** sha256.cpp:167-178; hash has 32 bytes *)
Definition c_revert (s : sha) (hash : list Z) : option (list Z) :=
  for_up 4 0 (fun i => for_up 8 0 (fun j hash =>
    x <- rd (m_state s) j ;; wr hash (i + j * 4) (Z.land (Z.shiftr x (24 - i * 8)) 0xff))) hash.
(** sha256.cpp:51-58: 32 bytes written at offset off of the array out *)
Definition c_digest (m st : list Z) (s : sha) (out : list Z) (off : Z) : option (list Z) :=
  s <- c_pad m st s ;; h <- rd_range out off 32 ;; h <- c_revert s h ;; wr_range out off h.
(** an object of class sha256, fed with parts (array, offset, length), then digest(out + off) *)
Definition c_sha (m st d0 : list Z) (parts : list (list Z * Z * Z)) (out : list Z) (off : Z) : option (list Z) :=
  s <- fold_left (fun s p => s <- s ;; data <- rd_range (fst (fst p)) (snd (fst p)) (snd p) ;; c_update m st s data) parts (Some (sha_init d0)) ;;
  c_digest m st s out off.

(** * signatures.cpp; the uninitialised arrays of the hash objects are gathered in one record *)
Record junk := mkJunk { u_m : list Z; u_st : list Z; u_d0 : list Z }.
Definition H (u : junk) := c_sha (u_m u) (u_st u) (u_d0 u).
(** signatures.cpp:14-63; opad, ipad, key the uninitialised buffers of 96, 64 + in_len and 64 bytes; mac has 32 bytes *)
Definition c_hmac (u : junk) (opad ipad _key mac inp : list Z) (in_len : Z) (key : list Z) (key_len : Z) : option (list Z) :=
  kl <- (if 64 <? key_len then k <- H u [(key, 0, key_len)] _key 0 ;; Some (k, k, 32) else Some (_key, key, key_len)) ;;
  let _key := fst (fst kl) in let key := snd (fst kl) in let key_len := snd kl in
  src <- rd_range key 0 key_len ;; _key <- wr_range _key 0 src ;; _key <- wr_range _key key_len (repeat 0 (Z.to_nat (64 - key_len))) ;;
  oi <- for_up 64 0 (fun i oi => k <- rd _key i ;; o <- wr (fst oi) i (Z.lxor 0x5C k) ;; p <- wr (snd oi) i (Z.lxor 0x36 k) ;; Some (o, p)) (opad, ipad) ;;
  src <- rd_range inp 0 in_len ;; ipad <- wr_range (snd oi) 64 src ;;
  opad <- H u [(ipad, 0, 64 + in_len)] (fst oi) 64 ;;
  H u [(opad, 0, 64 + 32)] mac 0.
(** signatures.cpp:105-138; ip n: the uninitialised buffer of 64 + n bytes of the call of hkdf256_hmac on n bytes of input; w the position bytesWritten *)
Fixpoint c_expand_loop (u : junk) (opad : list Z) (ip : Z -> list Z) (_key : list Z) (n : nat) (i L : Z) (prk info : list Z) (infoLen : Z) (T h1 h2 okm : list Z) (w : Z) : option (Z * list Z) :=
  match n with
  | O => if w =? L then Some (0, okm) else Some (-5, okm)
  | S n =>
      inf <- rd_range info 0 infoLen ;;
      r <- (if i =? 1 then
              h1 <- wr_range h1 0 inf ;; h1 <- wr h1 infoLen (u8 i) ;; T <- c_hmac u opad (ip (infoLen + 1)) _key T h1 (infoLen + 1) prk 32 ;; Some (T, h1, h2)
            else
              t <- rd_range T 0 32 ;; h2 <- wr_range h2 0 t ;; h2 <- wr_range h2 32 inf ;; h2 <- wr h2 (32 + infoLen) (u8 i) ;;
              T <- c_hmac u opad (ip (32 + infoLen + 1)) _key T h2 (32 + infoLen + 1) prk 32 ;; Some (T, h1, h2)) ;;
      let '(T, h1, h2) := r in
      let to_write := L - w in
      let to_write := if 32 <? to_write then 32 else to_write in
      if (to_write <=? 0) || (32 <? to_write) then Some (-4, okm)
      else src <- rd_range T 0 to_write ;; okm <- wr_range okm w src ;; c_expand_loop u opad ip _key n (i + 1) L prk info infoLen T h1 h2 okm (w + to_write)
  end.
(** signatures.cpp:80-147; okm has L bytes; T (32 bytes), h1 and h2 (infoLen + 1 and 32 + infoLen + 1 bytes) are the uninitialised T, hmacInput1 and hmacInput *)
Definition c_expand (u : junk) (opad : list Z) (ip : Z -> list Z) (_key T h1 h2 okm prk info : list Z) (infoLen : Z) : option (Z * list Z) :=
  let L := Z.of_nat (length okm) in
  if 255 * 32 <? L then Some (-1, okm)
  else let N := (L + 31) / 32 in
    if (N <? 1) || (255 <? N) then Some (-3, okm) else c_expand_loop u opad ip _key (Z.to_nat N) 1 L prk info infoLen T h1 h2 okm 0.
(** signatures.cpp:475-492: one iteration; b_i has 33 bytes, b_0 32, buf buf_len *)
Definition c_xmd_step (u : junk) (buf_len : Z) (b0 dst : list Z) (dst_len : Z) (l : list Z) (i : Z) (bb : list Z * list Z) : option (list Z * list Z) :=
  b_i <- for_up 32 0 (fun j b => x <- rd b0 j ;; y <- rd b j ;; wr b j (Z.lxor x y)) (snd bb) ;;
  b_i <- wr b_i 32 (u8 i) ;;
  b_i <- H u [(b_i, 0, 33); (dst, 0, dst_len); (l, 3, 1)] b_i 0 ;;
  let rem_after := buf_len - i * 32 in
  let copy_len := 32 + (if rem_after <? 0 then rem_after else 0) in
  src <- rd_range b_i 0 copy_len ;; buf <- wr_range (fst bb) ((i - 1) * 32) src ;;
  Some (buf, b_i).
(** signatures.cpp:444-494; None = out of bounds; Some (code, buf) *)
Definition c_xmd (u : junk) (b_0 buf inp : list Z) (in_len : Z) (dst : list Z) (dst_len : Z) : option (Z * list Z) :=
  let buf_len := Z.of_nat (length buf) in
  let ell := u32 (buf_len + 31) / 32 in
  if (buf_len <? 0) || (255 <? ell) || (255 <? dst_len) then Some (-1, buf)
  else
    let l := [u8 (Z.shiftr buf_len 8); Z.land buf_len 0xff; 0; u8 dst_len] in
    b_0 <- H u [(repeat 0 64, 0, 64); (inp, 0, in_len); (l, 0, 3); (dst, 0, dst_len); (l, 3, 1)] b_0 0 ;;
    bb <- for_up (Z.to_nat ell) 1 (c_xmd_step u buf_len b_0 dst dst_len l) (buf, repeat 0 33) ;;
    Some (0, fst bb).

(** * Hex strings *)
(** scalar.cpp:11-14 and scalar.hpp:384-388: && reads s[1] only after a '0' *)
Definition c_start (s : list Z) : option Z :=
  a <- rd s 0 ;; if a =? 48 then b <- rd s 1 ;; Some (if b =? 120 then 2 else 0) else Some 0.
(** scalar.cpp:26, scalar.hpp:392: the byte of the characters s[j], s[j+1] *)
Definition c_pair (s : list Z) (j : Z) : option Z := x <- rd s j ;; y <- rd s (j + 1) ;; Some ((hexval x * 16 + hexval y) mod 256).
(** scalar.cpp:8-31; push_back appends *)
Definition c_hexToBytes (s : list Z) : option (list Z) :=
  st <- c_start s ;;
  if negb (Z.of_nat (length s) mod 2 =? 0) then Some []
  else for_up (Z.to_nat ((Z.of_nat (length s) - st) / 2)) 0 (fun i bytes => v <- c_pair s (st + 2 * i) ;; Some (bytes ++ [v])) [].
(** scalar.hpp:378-394; a std::string may be read at index size(), where a zero character is found *)
Definition c_hexToBytesN (s out : list Z) : option (list Z) :=
  st <- c_start (s ++ [0]) ;;
  for_up (length out) 0 (fun i out => v <- c_pair (s ++ [0]) (st + 2 * i) ;; wr out i v) out.
(** the table hexmap *)
Definition hexmap : list Z := [48; 49; 50; 51; 52; 53; 54; 55; 56; 57; 97; 98; 99; 100; 101; 102].
(** scalar.cpp:33-45 and scalar.hpp:364-376 *)
Definition c_bytesToHex (b : list Z) : option (list Z) :=
  s <- wr (repeat 32 (2 + length b * 2)) 0 48 ;; s <- wr s 1 120 ;;
  for_up (length b) 0 (fun i s =>
    x <- rd b i ;; h <- rd hexmap (Z.shiftr (Z.land x 0xF0) 4) ;; s <- wr s (2 + 2 * i) h ;;
    x <- rd b i ;; h <- rd hexmap (Z.land x 0x0F) ;; wr s (2 + 2 * i + 1) h) s.

(** * pairing.cpp:75-137 *)
(** pairing.cpp:75-94; the array has 68 entries; the state is (array, r, k) *)
Definition c_pre_compute (arr : list ellc) (tp : g2) : option (list ellc) :=
  if g2_isZero tp then Some arr
  else
    s <- for_down 63 (fun i s =>
      let '(arr, r, k) := s in
      let cr := doubling_step r in
      arr <- wr arr k (fst cr) ;;
      w <- rd g2_cofactorEFF 0 ;;
      if Z.land (Z.shiftr w i) 1 =? 1 then
        let k := k + 1 in
        let cr' := addition_step (snd cr) tp in
        arr <- wr arr k (fst cr') ;; Some (arr, snd cr', k + 1)
      else Some (arr, snd cr, k + 1)) (arr, tp, 0) ;;
    Some (fst (fst s)).
(** pairing.cpp:117-122, 126-131: pairs.size()-1 is an unsigned value, the loop runs for j = 0, ..., that value *)
Definition c_ell_all (ellCoeffs : list (list ellc)) (pairs : list (g1 * g2)) (k : Z) (f : fp12) : option fp12 :=
  for_up (Z.to_nat ((Z.of_nat (length pairs) - 1) mod 2 ^ 64 + 1)) 0 (fun j f =>
    cs <- rd ellCoeffs j ;; c <- rd cs k ;; p <- rd pairs j ;; Some (ell f c (fst p))) f.
(** pairing.cpp:96-137 *)
Definition c_miller_loop (pairs : list (g1 * g2)) : option fp12 :=
  cs <- for_up (length pairs) 0 (fun i cs =>
     p <- rd pairs i ;; arr <- rd cs i ;; arr <- c_pre_compute arr (snd p) ;; wr cs i arr)
     (repeat (repeat ell_zero 68) (length pairs)) ;;
  fk <- for_down 63 (fun i fk =>
    let (f, k) := fk : fp12 * Z in
    let f := if i =? 62 then f else fp12_sqr f in
    f <- c_ell_all cs pairs k f ;;
    w <- rd g2_cofactorEFF 0 ;;
    if Z.land (Z.shiftr w i) 1 =? 1 then
      let k := k + 1 in f <- c_ell_all cs pairs k f ;; Some (f, k + 1)
    else Some (f, k + 1)) (fp12_one, 0) ;;
  Some (fp12_conj (fst fk)).

(** * fp.cpp:1117-1173, 1487-1533: the coefficient tables; power is unsigned *)
Definition c_coeff6 (power : Z) : option (fp2 * fp2) :=
  a <- rd frobeniusCoeffs61 (power mod 6) ;; b <- rd frobeniusCoeffs62 (power mod 6) ;; Some (a, b).
Definition c_coeff12 (power : Z) : option fp2 := rd frobeniusCoeffs12 power.
(** fp.cpp:309-314: fpPower.d[power/64] = 1 << (power%64) on a zero-initialised fp *)
Definition c_power (power : Z) : option (list Z) := x <- shl 64 1 (power mod 64) ;; wr (repeat 0 6) (power / 64) x.
