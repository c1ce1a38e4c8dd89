(** The division of ModelDiv.v (src/scalar.cpp:236-339) with a log of its data-dependent branches, oldest first, and the key functions of
    src/signatures.cpp that call it.  Simplifications: only the branches of bn_divn_low itself are logged, not those inside its helpers
    (dv_cmp, bn_sub1_low, bn_add1_low) nor those of scalar::add; the test norm < 63 depends on the divisor only and is not logged. *)
From Coq Require Import ZArith List Bool.
From Verif Require Import ModelWord ModelScalar ModelPrim ModelFp PortArith ModelDiv ModelCurve ModelCodec ModelSha ModelKeys.
Import ListNotations.
Local Open Scope Z_scope.

(** BGrow: a[sa++] = carry is executed (scalar.cpp:250-253); BTop: the while loop goes on (272); BEq: a[i] == b[t] (290); BLower: the
    do loop goes on (313); BLong: d[sd++] = carry is executed (317); BMore: sa - sd > 0 (324); BBack: the digit was too large (329) *)
Inductive dbr := BGrow (b : bool) | BTop (b : bool) | BEq (b : bool) | BLower (b : bool) | BLong (b : bool) | BMore (b : bool) | BBack (b : bool).

(** scalar.cpp:272-276 *)
Fixpoint tdiv_top (fuel : nat) (a bs : list Z) (c : Z) : option (list Z * Z) * list dbr :=
  match fuel with
  | O => (None, [])
  | S fuel => match dv_cmp a bs with
              | Lt => (Some (a, c), [BTop false])
              | _ => let (r, l) := tdiv_top fuel (fst (bn_subn_low a bs)) bs ((c + 1) mod W) in (r, BTop true :: l)
              end
  end.
(** scalar.cpp:299-313 *)
Fixpoint tdiv_qhat (fuel : nat) (t1 t2 : list Z) (q : Z) : option Z * list dbr :=
  match fuel with
  | O => (None, [])
  | S fuel =>
      let (l, carry) := bn_mul1_low t1 q in
      match dv_cmp (l ++ [carry]) t2 with
      | Gt => let (r, l) := tdiv_qhat fuel t1 t2 (q - 1) in (r, BLower true :: l)
      | _ => (Some q, [BLower false])
      end
  end.
(** scalar.cpp:282-335 *)
Definition tdiv_step (cap i : nat) (a b : list Z) : outcome (list Z * Z) * list dbr :=
  let sa := length a in
  let sb := length b in
  let t := (sb - 1)%nat in
  let eq := limb a i =? limb b t in
  let q0 := if eq then RLC_MASK 64 else (limb a i * W + limb a (i - 1)) / limb b t in
  let t1 := [if Nat.eqb t 0 then 0 else limb b (t - 1); limb b t] in
  let t2 := [if Nat.ltb i 2 then 0 else limb a (i - 2); limb a (i - 1); limb a i] in
  match tdiv_qhat 8 t1 t2 q0 with
  | (None, l) => (Throw, BEq eq :: l)
  | (Some q, l) =>
      let (d, carry) := bn_mul1_low b q in
      let long := negb (carry =? 0) in
      let d := if carry =? 0 then d else d ++ [carry] in
      let l := BEq eq :: l ++ [BLong long] in
      let k := (i - t - 1)%nat in
      let sd := length d in
      if negb (Nat.leb sd cap && Nat.leb (k + sd) sa) then (OutOfBounds, l) else
      let (w, carry) := bn_subn_low (win a k sd) d in
      let a := splice a k w in
      let sd := (sd + k)%nat in
      let more := Nat.ltb sd sa in
      let (a, carry) :=
        if more then let (w, carry) := bn_sub1_low (win a sd (sa - sd)) carry in (splice a sd w, carry)
        else (a, carry) in
      let l := l ++ [BMore more; BBack (negb (carry =? 0))] in
      if carry =? 0 then (Ok (a, q), l)
      else
        let sd := (sb + k)%nat in
        let (w, carry) := bn_addn_low (win a k sb) b in
        let a := splice a k w in
        let (w, _) := bn_add1_low (win a sd (sa - sd)) carry in
        (Ok (splice a sd w, q - 1), l)
  end.
(** scalar.cpp:282 *)
Fixpoint tdiv_loop (cap m : nat) (a b c : list Z) : outcome (list Z * list Z) * list dbr :=
  match m with
  | O => (Ok (a, c), [])
  | S m' =>
      match tdiv_step cap (length b - 1 + m) a b with
      | (Ok (a, q), l) => let (r, l') := tdiv_loop cap m' a b (set_nth c m' q) in (r, l ++ l')
      | (Throw, l) => (Throw, l)
      | (OutOfBounds, l) => (OutOfBounds, l)
      end
  end.
(** scalar.cpp:236-339 *)
Definition tdivn_low (cap : nat) (c a b : list Z) : outcome (list Z * list Z) * list dbr :=
  let norm := (64 - clz64 (limb b (length b - 1))) mod 64 in
  let norm' := if norm <? 63 then 63 - norm else 0 in
  let (a1, ca) := if norm <? 63 then bn_lshb_low a norm' else (a, 0) in
  let (b1, cb) := if norm <? 63 then bn_lshb_low b norm' else (b, 0) in
  let grow := if norm <? 63 then [BGrow (negb (ca =? 0))] else [] in
  match append cap a1 ca, append cap b1 cb with
  | Ok a, Ok b =>
      let n := (length a - 1)%nat in
      let t := (length b - 1)%nat in
      if Nat.ltb n t then (OutOfBounds, grow) else
      match tdiv_top 8 a (dv_lshd b (n - t)) (limb c (n - t)) with
      | (None, l) => (Throw, grow ++ l)
      | (Some (a, q), l) =>
          match tdiv_loop cap (n - t) a (dv_rshd (dv_lshd b (n - t)) (n - t)) (set_nth c (n - t) q) with
          | (Ok (a, c), l') => (Ok (c, fst (bn_rshb_low (firstn (length b) a) norm')), grow ++ l ++ l')
          | (Throw, l') => (Throw, grow ++ l ++ l')
          | (OutOfBounds, l') => (OutOfBounds, grow ++ l ++ l')
          end
      end
  | Throw, _ | _, Throw => (Throw, grow)
  | _, _ => (OutOfBounds, grow)
  end.
(** scalar.hpp:220-239 *)
Definition tdivn_safe (a b : list Z) : outcome (list Z * list Z) * list dbr :=
  let N := length a in
  let M := length b in
  match tdivn_low (N + 2) (repeat 0 (N + 2)) a b with
  | (Ok (q, r), l) => (Ok (firstn N q, firstn M r), l)
  | (Throw, l) => (Throw, l)
  | (OutOfBounds, l) => (OutOfBounds, l)
  end.

(** a call of a logged function, its log put before the log of the rest *)
Definition tbind {A B} (x : outcome A * list dbr) (f : A -> outcome B * list dbr) : outcome B * list dbr :=
  match x with
  | (Ok a, l) => let (r, l') := f a in (r, l ++ l')
  | (Throw, l) => (Throw, l)
  | (OutOfBounds, l) => (OutOfBounds, l)
  end.
(** bn_divn_safe(quotient, remainder, k, fp::Q), e.g. signatures.cpp:216 *)
Definition treduce (k : list Z) : outcome (list Z) * list dbr := tbind (tdivn_safe k Ql) (fun qr => (Ok (snd qr), [])).
(** signatures.cpp:393-401 *)
Fixpoint tagg_sk_loop (ret : list Z) (sks : list (list Z)) : outcome (list Z) * list dbr :=
  match sks with
  | [] => (Ok ret, [])
  | sk :: sks => tbind (scalar_add 4 ret sk, []) (fun state => tbind (treduce state) (fun ret => tagg_sk_loop ret sks))
  end.
(** signatures.cpp:384-404 *)
Definition taggregate_secret_keys (sks : list (list Z)) : outcome (list Z) * list dbr :=
  match sks with [] => (Ok [0; 0; 0; 0], []) | _ => tagg_sk_loop [0; 0; 0; 0] sks end.
(** signatures.cpp:311-331, with sk_from_bytes(digest, true) (411-425) *)
Definition tderive_child_sk_unhardened (parentSk : list Z) (index : Z) : outcome (list Z) * list dbr :=
  let buf := g1_toCompressed (public_key parentSk) ++ index_bytes index in
  let digest := sha256 [buf] in
  tbind (treduce (fromBytesBE 4 digest)) (fun nonce => taggregate_secret_keys [parentSk; nonce]).
