(** Model of the point codecs of g1 (src/g.cpp:20-232) and g2 (733-960).  Byte strings are lists of integers in [0,256) of the
    length fixed by the span type (48/96/144 and 96/192/288).  The two classes run the same steps on fp and fp2, so the Jacobian and
    affine codecs and the reconstruction of y are written once over the field operations; g1 lines are cited first, then g2 lines. *)
From Coq Require Import ZArith List Bool.
From Verif Require Import ModelWord ModelScalar ModelPrim ModelFp ModelTower ModelCurve.
Import ListNotations.
Local Open Scope Z_scope.

Section C.
Context {T : Type} (o : fops T) (bc : T).
(** n: bytes per coordinate; rd b check mont: fromBytesBE/LE of the field; wr x mont: toBytesBE/LE *)
Variables (n : nat) (rd : list Z -> bool -> bool -> option T) (wr : T -> bool -> list Z).
(** g.cpp:20-54; 733-767.  The coordinates are always checked (opt.check_valid = true); the flag only controls the curve check. *)
Definition j_fromJacobian (b : list Z) (check mont : bool) : option (jac T) :=
  match rd (sub_span 0 n b) true mont, rd (sub_span n n b) true mont, rd (sub_span (2 * n) n b) true mont with
  | Some x, Some y, Some z =>
      let p := mkJ x y z in
      if check && negb (j_isOnCurve o bc p) then None else Some p
  | _, _, _ => None
  end.
(** g.cpp:56-100; 769-809 *)
Definition j_fromAffine (b : list Z) (check mont : bool) : option (jac T) :=
  match rd (sub_span 0 n b) true mont, rd (sub_span n n b) true mont with
  | Some x, Some y =>
      if f_isZero o x && f_isZero o y then Some (j_zero o)
      else
        let p := mkJ x y (f_one o) in
        if check && negb (j_isOnCurve o bc p) then None else Some p
  | _, _ => None
  end.
(** g.cpp:144-156; 854-866 *)
Definition j_toJacobian (p : jac T) (mont : bool) : list Z := wr (jx p) mont ++ wr (jy p) mont ++ wr (jz p) mont.
(** g.cpp:158-180; 868-890 *)
Definition j_toAffine (p : jac T) (mont : bool) : list Z :=
  if j_isZero o p then repeat 0 (2 * n)
  else let r := j_affine o p in wr (jx r) mont ++ wr (jy r) mont.
(** g.cpp:126-141; 836-851: y from x, with sqrt returning (flag, root) *)
Variables (sqrt : T -> bool * T) (lex : T -> bool).
Definition j_recover (x : T) (ysign : bool) : option (jac T) :=
  let y := f_sqr o x in
  let y := f_mul o y x in
  let y := f_add o y bc in
  let (ok, y) := sqrt y in
  if ok then
    let y := if xorb (lex y) ysign then f_neg o y else y in
    Some (mkJ x y (f_one o))
  else None.
End C.

(** ((in[0] >> k) & 1) == 1 *)
Definition flag (b : list Z) (k : Z) : bool := Z.land (Z.shiftr (nth 0 b 0) k) 1 =? 1.
(** out[0] |= m *)
Definition or0 (b : list Z) (m : Z) : list Z := match b with h :: t => Z.lor h m :: t | [] => [] end.
(** scalar::fromBytesBE(in, x.d); x.d[5] &= 0x1FFFFFFFFFFFFFFF *)
Definition read381 (b : list Z) : Z :=
  let d := fromBytesBE 6 b in val (firstn 5 d ++ [Z.land (nth 5 d 0) 0x1FFFFFFFFFFFFFFF]).

(** g.cpp:102-142: note that the validity check is made after the conversion to Montgomery form *)
Definition g1_fromCompressed (b : list Z) : option g1 :=
  if negb (flag b 7) then None
  else if flag b 6 then Some g1_zero
  else
    let x := fp_toMont (read381 b) in
    if negb (fp_isValid x) then None
    else j_recover fp_ops B fp_sqrt fp_isLexLargest x (flag b 5).
(** g.cpp:182-204 *)
Definition g1_toCompressed (p : g1) : list Z :=
  let p := g1_affine p in
  if fp_isZero (jx p) && fp_isZero (jy p) then or0 (repeat 0 48) 0xC0
  else
    let out := fp_toBytesBE (jx p) true in
    let out := if fp_isLexLargest (jy p) then or0 out 0x20 else out in
    or0 out 0x80.
(** g.cpp:811-852 *)
Definition g2_fromCompressed (b : list Z) : option g2 :=
  if negb (flag b 7) then None
  else if flag b 6 then Some g2_zero
  else
    let x1 := read381 (sub_span 0 48 b) in
    match fp_fromBytesBE (sub_span 48 48 b) true true with
    | None => None
    | Some x0 =>
        let x1 := fp_toMont x1 in
        if negb (fp_isValid x1) then None
        else j_recover fp2_ops fp2_B fp2_sqrt fp2_isLexLargest (mk2 x0 x1) (flag b 5)
    end.
(** g.cpp:892-915 *)
Definition g2_toCompressed (p : g2) : list Z :=
  let p := g2_affine p in
  if fp2_isZero (jx p) && fp2_isZero (jy p) then or0 (repeat 0 96) 0xC0
  else
    let out := fp_toBytesBE (c1 (jx p)) true ++ fp_toBytesBE (c0 (jx p)) true in
    let out := if fp2_isLexLargest (jy p) then or0 out 0x20 else out in
    or0 out 0x80.

(** ** the instances *)
Definition g1_fromJacobianBE := j_fromJacobian fp_ops B 48 fp_fromBytesBE.
Definition g1_fromJacobianLE := j_fromJacobian fp_ops B 48 fp_fromBytesLE.
Definition g1_fromAffineBE := j_fromAffine fp_ops B 48 fp_fromBytesBE.
Definition g1_fromAffineLE := j_fromAffine fp_ops B 48 fp_fromBytesLE.
Definition g1_toJacobianBE := j_toJacobian fp_toBytesBE.
Definition g1_toJacobianLE := j_toJacobian fp_toBytesLE.
Definition g1_toAffineBE := j_toAffine fp_ops 48 fp_toBytesBE.
Definition g1_toAffineLE := j_toAffine fp_ops 48 fp_toBytesLE.
Definition g2_fromJacobianBE := j_fromJacobian fp2_ops fp2_B 96 fp2_fromBytesBE.
Definition g2_fromJacobianLE := j_fromJacobian fp2_ops fp2_B 96 fp2_fromBytesLE.
Definition g2_fromAffineBE := j_fromAffine fp2_ops fp2_B 96 fp2_fromBytesBE.
Definition g2_fromAffineLE := j_fromAffine fp2_ops fp2_B 96 fp2_fromBytesLE.
Definition g2_toJacobianBE := j_toJacobian fp2_toBytesBE.
Definition g2_toJacobianLE := j_toJacobian fp2_toBytesLE.
Definition g2_toAffineBE := j_toAffine fp2_ops 96 fp2_toBytesBE.
Definition g2_toAffineLE := j_toAffine fp2_ops 96 fp2_toBytesLE.
