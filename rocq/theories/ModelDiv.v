(** Model of the RELIC-derived division (src/scalar.cpp:48-339, include/bls12-381/scalar.hpp:218-249).
    Pointers into the N+2-limb buffers of bn_divn_safe are modelled by the list of limbs in use (length sa, sb);
    growing past the capacity, or indexing below 0, gives [OutOfBounds]. *)
From Coq Require Import ZArith List Bool.
From Verif Require Import ModelWord ModelScalar ModelPrim ModelFp PortArith.
Import ListNotations.
Local Open Scope Z_scope.

(** scalar.cpp:50 *)
Definition RLC_MASK (b : Z) : Z := Z.lor (if 64 <=? b then W - 1 else 0) ((Z.shiftl 1 (b mod 64)) mod W - 1).
(** scalar.cpp:51-71; size = length *)
Fixpoint lshb_loop (a : list Z) (bits carry : Z) : list Z * Z :=
  match a with
  | [] => ([], carry)
  | x :: a =>
      let r := Z.land (Z.shiftr x (64 - bits)) (RLC_MASK bits) in
      let c := Z.lor ((Z.shiftl x bits) mod W) carry in
      let (l, carry) := lshb_loop a bits r in (c :: l, carry)
  end.
Definition bn_lshb_low (a : list Z) (bits : Z) : list Z * Z := lshb_loop a bits 0.
(** scalar.cpp:73-92 for digits >= 0: the low limbs become 0 *)
Definition dv_lshd (a : list Z) (digits : nat) : list Z := repeat 0 digits ++ a.
(** scalar.cpp:94-110; from the top limb down, the first difference decides *)
Definition dv_cmp (a b : list Z) : comparison := cmp_loop (length a) a b.
(** scalar.cpp:112-127 *)
Fixpoint subn_loop (a b : list Z) (carry : Z) : list Z * Z :=
  match a, b with
  | x :: a, y :: b =>
      let diff := (x - y) mod W in
      let r0 := (diff - carry) mod W in
      let carry := if (x <? y) || (negb (carry =? 0) && (diff =? 0)) then 1 else 0 in
      let (l, carry) := subn_loop a b carry in (r0 :: l, carry)
  | _, _ => ([], carry)
  end.
Definition bn_subn_low (a b : list Z) : list Z * Z := subn_loop a b 0.
(** scalar.cpp:129-146: the inverse of dv_lshd *)
Definition dv_rshd (a : list Z) (digits : nat) : list Z := skipn digits a.
(** scalar.cpp:148-159 *)
Fixpoint mul1_loop (a : list Z) (digit carry : Z) : list Z * Z :=
  match a with
  | [] => ([], carry)
  | x :: a =>
      let r1 := (x * digit) / W in
      let r0 := (x * digit) mod W in
      let c := (r0 + carry) mod W in
      let carry := (r1 + (if c <? carry then 1 else 0)) mod W in
      let (l, carry) := mul1_loop a digit carry in (c :: l, carry)
  end.
Definition bn_mul1_low (a : list Z) (digit : Z) : list Z * Z := mul1_loop a digit 0.
(** scalar.cpp:161-178 *)
Fixpoint bn_sub1_low (a : list Z) (carry : Z) : list Z * Z :=
  match a with
  | [] => ([], carry)
  | x :: a =>
      if carry =? 0 then (x :: a, 0) else
      let r0 := (x - carry) mod W in
      let (l, carry) := bn_sub1_low a (if x <? r0 then 1 else 0) in (r0 :: l, carry)
  end.
(** scalar.cpp:180-197 *)
Fixpoint addn_loop (a b : list Z) (carry : Z) : list Z * Z :=
  match a, b with
  | x :: a, y :: b =>
      let r0 := (x + y) mod W in
      let c0 := if r0 <? x then 1 else 0 in
      let r1 := (r0 + carry) mod W in
      let c1 := if r1 <? r0 then 1 else 0 in
      let (l, carry) := addn_loop a b (Z.lor c0 c1) in (r1 :: l, carry)
  | _, _ => ([], carry)
  end.
Definition bn_addn_low (a b : list Z) : list Z * Z := addn_loop a b 0.
(** scalar.cpp:199-216 *)
Fixpoint bn_add1_low (a : list Z) (carry : Z) : list Z * Z :=
  match a with
  | [] => ([], carry)
  | x :: a =>
      if carry =? 0 then (x :: a, 0) else
      let r0 := (x + carry) mod W in
      let (l, carry) := bn_add1_low a (if r0 <? carry then 1 else 0) in (r0 :: l, carry)
  end.
(** scalar.cpp:218-239, from the top limb down; [l] is the limb list, result in the same order *)
Fixpoint bn_rshb_low (a : list Z) (bits : Z) : list Z * Z :=
  match a with
  | [] => ([], 0)
  | x :: a =>
      let (l, carry) := bn_rshb_low a bits in
      (Z.lor (Z.shiftr x bits) ((Z.shiftl carry ((64 - bits) mod 64)) mod W) :: l, Z.land x (RLC_MASK bits))
  end.

(** a[off .. off+n) and its replacement *)
Definition win (a : list Z) (off n : nat) : list Z := firstn n (skipn off a).
Definition splice (a : list Z) (off : nat) (w : list Z) : list Z := firstn off a ++ w ++ skipn (off + length w) a.

(** scalar.cpp:272-276: the first quotient digit *)
Fixpoint div_top (fuel : nat) (a bs : list Z) (c : Z) : option (list Z * Z) :=
  match fuel with
  | O => None
  | S fuel => match dv_cmp a bs with
              | Lt => Some (a, c)
              | _ => div_top fuel (fst (bn_subn_low a bs)) bs ((c + 1) mod W)
              end
  end.
(** scalar.cpp:299-313: lower the digit while digit * (b[t],b[t-1]) exceeds (a[i],a[i-1],a[i-2]) *)
Fixpoint div_qhat (fuel : nat) (t1 t2 : list Z) (q : Z) : option Z :=
  match fuel with
  | O => None
  | S fuel =>
      let (l, carry) := bn_mul1_low t1 q in
      match dv_cmp (l ++ [carry]) t2 with
      | Gt => div_qhat fuel t1 t2 (q - 1)
      | _ => Some q
      end
  end.
(** one round of scalar.cpp:282-335 for index i; returns the new a and the digit c[i-t-1] *)
Definition div_step (cap i : nat) (a b : list Z) : outcome (list Z * Z) :=
  let sa := length a in
  let sb := length b in
  let t := (sb - 1)%nat in
  let q0 := if limb a i =? limb b t then RLC_MASK 64
            else (limb a i * W + limb a (i - 1)) / limb b t in
  let t1 := [if Nat.eqb t 0 then 0 else limb b (t - 1); limb b t] in
  let t2 := [if Nat.ltb i 2 then 0 else limb a (i - 2); limb a (i - 1); limb a i] in
  match div_qhat 8 t1 t2 q0 with
  | None => Throw (* fuel exhausted; shown impossible *)
  | Some q =>
      let (d, carry) := bn_mul1_low b q in
      let d := if carry =? 0 then d else d ++ [carry] in
      let k := (i - t - 1)%nat in
      let sd := length d in
      if negb (Nat.leb sd cap && Nat.leb (k + sd) sa) then OutOfBounds else
      let (w, carry) := bn_subn_low (win a k sd) d in
      let a := splice a k w in
      let sd := (sd + k)%nat in
      let (a, carry) :=
        if Nat.ltb sd sa then let (w, carry) := bn_sub1_low (win a sd (sa - sd)) carry in (splice a sd w, carry)
        else (a, carry) in
      if carry =? 0 then Ok (a, q)
      else
        let sd := (sb + k)%nat in
        let (w, carry) := bn_addn_low (win a k sb) b in
        let a := splice a k w in
        let (w, _) := bn_add1_low (win a sd (sa - sd)) carry in
        Ok (splice a sd w, q - 1)
  end.
(** for(i = n; i >= t + 1; i--): [m] counts the remaining rounds, i = t + m *)
Fixpoint div_loop (cap m : nat) (a b c : list Z) : outcome (list Z * list Z) :=
  match m with
  | O => Ok (a, c)
  | S m' =>
      match div_step cap (length b - 1 + m) a b with
      | Ok (a, q) => div_loop cap m' a b (set_nth c m' q)
      | Throw => Throw
      | OutOfBounds => OutOfBounds
      end
  end.
(** int countl_zero on any word *)
Definition clz64 (w : Z) : Z := if w =? 0 then 64 else countl_zero w.
(** a[sa++] = carry *)
Definition append (cap : nat) (a : list Z) (carry : Z) : outcome (list Z) :=
  if carry =? 0 then Ok a else if Nat.ltb (length a) cap then Ok (a ++ [carry]) else OutOfBounds.
(** scalar.cpp:236-339; [c] the quotient buffer; result (quotient, remainder limbs) *)
Definition bn_divn_low (cap : nat) (c a b : list Z) : outcome (list Z * list Z) :=
  let norm := (64 - clz64 (limb b (length b - 1))) mod 64 in
  let norm' := if norm <? 63 then 63 - norm else 0 in
  let (a1, ca) := if norm <? 63 then bn_lshb_low a norm' else (a, 0) in
  let (b1, cb) := if norm <? 63 then bn_lshb_low b norm' else (b, 0) in
  match append cap a1 ca, append cap b1 cb with
  | Ok a, Ok b =>
      let n := (length a - 1)%nat in
      let t := (length b - 1)%nat in
      (* dv_lshd with digits = n - t = -1 writes b[-1] *)
      if Nat.ltb n t then OutOfBounds else
      match div_top 8 a (dv_lshd b (n - t)) (limb c (n - t)) with
      | None => Throw (* fuel exhausted; shown impossible *)
      | Some (a, q) =>
          match div_loop cap (n - t) a (dv_rshd (dv_lshd b (n - t)) (n - t)) (set_nth c (n - t) q) with
          | Ok (a, c) => Ok (c, fst (bn_rshb_low (firstn (length b) a) norm'))
          | Throw => Throw
          | OutOfBounds => OutOfBounds
          end
      end
  | Throw, _ | _, Throw => Throw
  | _, _ => OutOfBounds
  end.
(** scalar.hpp:220-239: N = length a, M = length b; buffers of N+2 limbs, the first N (M) limbs are copied out *)
Definition bn_divn_safe (a b : list Z) : outcome (list Z * list Z) :=
  let N := length a in
  let M := length b in
  match bn_divn_low (N + 2) (repeat 0 (N + 2)) a b with
  | Ok (q, r) => Ok (firstn N q, firstn M r)
  | Throw => Throw
  | OutOfBounds => OutOfBounds
  end.
(** fp::modPrime, scalar.hpp:241-249 *)
Definition modPrime (k : list Z) : outcome Z :=
  match bn_divn_safe k MODl with
  | Ok (_, r) => Ok (fp_toMont (val r))
  | Throw => Throw
  | OutOfBounds => OutOfBounds
  end.
