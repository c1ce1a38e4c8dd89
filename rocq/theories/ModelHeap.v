(** malloc and free in the key derivation functions of src/signatures.cpp.  The other model files let every allocation succeed; here
    any of them may fail.  The heap records how often malloc was called and which blocks are live (a block is named by the number of
    the call that returned it).  Contents of buffers are values, as in ModelKdf.v; bounds are the subject of ModelMem.v. *)
From Coq Require Import ZArith List Bool.
From Verif Require Import ModelScalar ModelSha ModelKdf ModelDiv ModelKeys.
Import ListNotations.
Local Open Scope Z_scope.

Record heap := mkHeap { calls : nat; live : list nat }.
(** NullAccess: an access through a null pointer; BadFree: free of a block that is not live *)
Inductive hres (A : Type) := Res (a : A) (h : heap) | NullAccess | BadFree.
Arguments Res {A}. Arguments NullAccess {A}. Arguments BadFree {A}.
Notation "x <~ e ;; k" := (fun h0 : heap => match e h0 with Res x h1 => k h1 | NullAccess => NullAccess | BadFree => BadFree end) (at level 100, e at next level, right associativity).
Definition ret {A} (a : A) (h : heap) : hres A := Res a h.

Section Heap.
(** which calls of malloc succeed; the indeterminate contents of the local arrays T and prk (32 bytes), given the number of calls of malloc so far *)
Variable ok : nat -> bool.
Variable u_T u_prk : nat -> list Z.

Definition malloc (h : heap) : hres (option nat) :=
  let n := calls h in if ok n then Res (Some n) (mkHeap (S n) (n :: live h)) else Res None (mkHeap (S n) (live h)).
Fixpoint del (n : nat) (l : list nat) : option (list nat) :=
  match l with
  | [] => None
  | x :: l => if Nat.eqb x n then Some l else match del n l with Some l => Some (x :: l) | None => None end
  end.
(** free(NULL) does nothing *)
Definition free (p : option nat) (h : heap) : hres unit :=
  match p with
  | None => Res tt h
  | Some n => match del n (live h) with Some l => Res tt (mkHeap (calls h) l) | None => BadFree end
  end.
(** writing a byte or more through p *)
Definition need (p : option nat) (h : heap) : hres unit := match p with Some _ => Res tt h | None => NullAccess end.
(** the contents of an uninitialised array *)
Definition indet (u : nat -> list Z) (h : heap) : hres (list Z) := Res (u (calls h)) h.

(** signatures.cpp:14-63: (return code, bytes at mac afterwards); mac: the bytes there before *)
Definition h_hmac (mac input key : list Z) : heap -> hres (Z * list Z) :=
  (ipad <~ malloc ;;
   match ipad with
   | None => ret (-1, mac)
   | Some _ => (_ <~ free ipad ;; ret (0, hkdf256_hmac input key))
   end).
(** signatures.cpp:110-146, iterations i, i+1, ..., n left; the return code of hkdf256_hmac is ignored; out: the bytes written so far *)
Fixpoint h_expand_loop (n : nat) (i L : Z) (prk info T : list Z) (hmacInput1 hmacInput : option nat) (out : list Z) : heap -> hres (Z * list Z) :=
  match n with
  | O => (_ <~ free hmacInput1 ;; (_ <~ free hmacInput ;; ret (if Z.of_nat (length out) =? L then 0 else -5, out)))
  | S n =>
      (_ <~ (if i =? 1 then need hmacInput1 else need hmacInput) ;;
      (r <~ h_hmac T (if i =? 1 then info ++ [u8 i] else T ++ info ++ [u8 i]) prk ;;
       let T := snd r in
       let to_write := L - Z.of_nat (length out) in
       let to_write := if 32 <? to_write then 32 else to_write in
       if (to_write <=? 0) || (32 <? to_write) then ret (-4, out)
       else h_expand_loop n (i + 1) L prk info T hmacInput1 hmacInput (out ++ firstn (Z.to_nat to_write) T)))
  end.
(** signatures.cpp:80-147; okm: the L bytes of the output before the call; the early returns of lines 105-109 free nothing *)
Definition h_expand (okm prk info : list Z) : heap -> hres (Z * list Z) :=
  let L := Z.of_nat (length okm) in
  if 255 * 32 <? L then ret (-1, okm)
  else let N := (L + 31) / 32 in
    (T <~ indet u_T ;; (hmacInput1 <~ malloc ;; (hmacInput <~ malloc ;;
     if (N <? 1) || (255 <? N) then ret (-3, okm)
     else (r <~ h_expand_loop (Z.to_nat N) 1 L (firstn 32 prk) info T hmacInput1 hmacInput [] ;;
           ret (fst r, snd r ++ skipn (length (snd r)) okm))))).
(** signatures.cpp:149-164 *)
Definition h_extract_expand (okm key salt info : list Z) : heap -> hres (Z * list Z) :=
  (prk <~ indet u_prk ;; (r <~ h_hmac prk key salt ;;
   if negb (fst r =? 0) then ret (fst r, okm) else h_expand okm (snd r) info)).
(** signatures.cpp:202-231: okm: the contents of okmHkdf; Ok None: not finished after fuel iterations *)
Fixpoint h_sk_loop (fuel : nat) (ikm salt okm : list Z) : heap -> hres (outcome (option (list Z))) :=
  match fuel with
  | O => ret (Ok None)
  | S fuel =>
      (r <~ h_extract_expand okm ikm salt [0; 48] ;;
       let okm := snd r in
       match reduce (fromBytesBE 6 okm) with
       | Ok sk => if negb (scalar_equal sk [0; 0; 0; 0]) then ret (Ok (Some sk)) else h_sk_loop fuel ikm (sha256 [salt]) okm
       | Throw => ret Throw
       | OutOfBounds => ret OutOfBounds
       end)
  end.
(** signatures.cpp:166-237; okm: the 48 indeterminate bytes of okmHkdf *)
Definition h_secret_key (fuel : nat) (okm seed : list Z) : heap -> hres (outcome (option (list Z))) :=
  if Z.of_nat (length seed) <? 32 then ret (Ok (Some [0; 0; 0; 0]))
  else
    (ikmHkdf <~ malloc ;; (_ <~ need ikmHkdf ;;
     (r <~ h_sk_loop fuel (seed ++ [0]) [66; 76; 83; 45; 83; 73; 71; 45; 75; 69; 89; 71; 69; 78; 45; 83; 65; 76; 84; 45] okm ;;
      match r with
      | Ok (Some sk) => (_ <~ free ikmHkdf ;; ret (Ok (Some sk)))
      | _ => ret r
      end))).
(** signatures.cpp:239-250 *)
Definition h_ikm_to_lamport_sk (out ikm salt : list Z) : heap -> hres (list Z) :=
  (r <~ h_extract_expand out ikm salt [] ;; ret (snd r)).
(** signatures.cpp:252-297; lamport0, lamport1: the 8160 indeterminate bytes each *)
Definition h_lamport_pk (lamport0 lamport1 parentSk : list Z) (index : Z) : heap -> hres (list Z) :=
  let salt := index_bytes index in
  let ikm := toBytesBE parentSk in
  let notIkm := map (fun b => Z.lxor b 0xff) ikm in
  (lamport0 <~ h_ikm_to_lamport_sk lamport0 ikm salt ;;
  (lamport1 <~ h_ikm_to_lamport_sk lamport1 notIkm salt ;;
   let pk0 := flat_map (fun i => sha256 [firstn 32 (skipn (i * 32) lamport0)]) (seq 0 255) in
   let pk1 := flat_map (fun i => sha256 [firstn 32 (skipn (i * 32) lamport1)]) (seq 0 255) in
   ret (sha256 [pk0 ++ pk1]))).
(** signatures.cpp:299-309 *)
Definition h_derive_child_sk (fuel : nat) (lamport0 lamport1 okm parentSk : list Z) (index : Z) : heap -> hres (outcome (option (list Z))) :=
  (pk <~ h_lamport_pk lamport0 lamport1 parentSk index ;; h_secret_key fuel okm pk).
End Heap.
