(** The array-level model of SHA-256, HMAC and HKDF (ModelMem.v) with a log of what an observer of addresses and branches sees: every
    element access (array and index, not the value), every memcpy and memset (array, offset, count), and the outcome of every
    data-dependent branch.  The loops with constant bounds and the loop of update, whose bound is an argument, need no entry of
    their own.  The newest entry comes first. *)
From Coq Require Import ZArith List Bool.
From Verif Require Import ModelWord ModelScalar ModelSha ModelKdf ModelMem.
Import ListNotations.
Local Open Scope Z_scope.

(** the arrays: members m_data and m_state, locals m and state of transform, the constants K, and arrays of the callers by number *)
Inductive arr := AData | AState | AM | ASt | AK | AUser (n : Z).
Inductive ev := ERd (a : arr) (i : Z) | EWr (a : arr) (i : Z) | ERange (a : arr) (off n : Z) | EWrange (a : arr) (off n : Z) | EBr (b : bool).
Definition tr (A : Type) := list ev -> option (A * list ev).
Definition ret {A} (x : A) : tr A := fun l => Some (x, l).
Definition bind {A B} (t : tr A) (k : A -> tr B) : tr B := fun l => match t l with Some (x, l) => k x l | None => None end.
Notation "x <~ e ;; k" := (bind e (fun x => k)) (at level 100, e at next level, right associativity).
Definition logged {A} (e : ev) (o : option A) : tr A := fun l => match o with Some x => Some (x, e :: l) | None => None end.
Definition trd (a : arr) (s : list Z) (i : Z) : tr Z := logged (ERd a i) (rd s i).
Definition twr (a : arr) (s : list Z) (i v : Z) : tr (list Z) := logged (EWr a i) (wr s i v).
Definition trange (a : arr) (s : list Z) (off n : Z) : tr (list Z) := logged (ERange a off n) (rd_range s off n).
Definition twrange (a : arr) (s : list Z) (off : Z) (w : list Z) : tr (list Z) := logged (EWrange a off (Z.of_nat (length w))) (wr_range s off w).
Definition tbr (b : bool) : tr bool := logged (EBr b) (Some b).
Fixpoint tfor {S} (n : nat) (i : Z) (body : Z -> S -> tr S) (s : S) : tr S :=
  match n with O => ret s | Datatypes.S n => s <~ body i s ;; tfor n (i + 1) body s end.

(** sha256.cpp:90-94, 96-100 *)
Definition t_schedule (d m : list Z) : tr (list Z) :=
  m <~ tfor 16 0 (fun i m =>
    let j := 4 * i in
    a <~ trd AData d j ;; b <~ trd AData d (j + 1) ;; c <~ trd AData d (j + 2) ;; e <~ trd AData d (j + 3) ;;
    twr AM m i (Z.lor (Z.lor (Z.lor (u32 (Z.shiftl a 24)) (Z.shiftl b 16)) (Z.shiftl c 8)) e)) m ;;
  tfor 48 16 (fun k m =>
    a <~ trd AM m (k - 2) ;; b <~ trd AM m (k - 7) ;; c <~ trd AM m (k - 15) ;; e <~ trd AM m (k - 16) ;;
    twr AM m k (u32 (sha_sig1 a + b + sha_sig0 c + e))) m.
(** sha256.cpp:107-128 *)
Definition t_round (m : list Z) (i : Z) (s : list Z) : tr (list Z) :=
  s0 <~ trd ASt s 0 ;; s1 <~ trd ASt s 1 ;; s2 <~ trd ASt s 2 ;; s3 <~ trd ASt s 3 ;;
  s4 <~ trd ASt s 4 ;; s5 <~ trd ASt s 5 ;; s6 <~ trd ASt s 6 ;; s7 <~ trd ASt s 7 ;;
  mi <~ trd AM m i ;; ki <~ trd AK sha_K i ;;
  let maj := sha_majority s0 s1 s2 in
  let xorA := Z.lxor (Z.lxor (sha_rotr s0 2) (sha_rotr s0 13)) (sha_rotr s0 22) in
  let ch := sha_choose s4 s5 s6 in
  let xorE := Z.lxor (Z.lxor (sha_rotr s4 6) (sha_rotr s4 11)) (sha_rotr s4 25) in
  let sum := u32 (mi + ki + s7 + ch + xorE) in
  let newA := u32 (xorA + maj + sum) in
  let newE := u32 (s3 + sum) in
  x <~ trd ASt s 6 ;; s <~ twr ASt s 7 x ;; x <~ trd ASt s 5 ;; s <~ twr ASt s 6 x ;; x <~ trd ASt s 4 ;; s <~ twr ASt s 5 x ;; s <~ twr ASt s 4 newE ;;
  x <~ trd ASt s 2 ;; s <~ twr ASt s 3 x ;; x <~ trd ASt s 1 ;; s <~ twr ASt s 2 x ;; x <~ trd ASt s 0 ;; s <~ twr ASt s 1 x ;; twr ASt s 0 newA.
(** sha256.cpp:85-134 *)
Definition t_transform (m st : list Z) (s : sha) : tr sha :=
  m <~ t_schedule (m_data s) m ;;
  st <~ tfor 8 0 (fun i st => x <~ trd AState (m_state s) i ;; twr ASt st i x) st ;;
  st <~ tfor 64 0 (t_round m) st ;;
  ms <~ tfor 8 0 (fun i ms => x <~ trd AState ms i ;; y <~ trd ASt st i ;; twr AState ms i (u32 (x + y))) (m_state s) ;;
  ret (mkSha (m_data s) (m_blocklen s) (m_bitlen s) ms).
(** sha256.cpp:21-35 on data = a + off *)
Definition t_update (m st : list Z) (s : sha) (a : arr) (off : Z) (data : list Z) : tr sha :=
  tfor (length data) 0 (fun i s =>
    x <~ logged (ERd a (off + i)) (rd data i) ;; d <~ twr AData (m_data s) (m_blocklen s) x ;;
    let s := mkSha d (u32 (m_blocklen s + 1)) (m_bitlen s) (m_state s) in
    b <~ tbr (m_blocklen s =? 64) ;;
    if b : bool then
      s <~ t_transform m st s ;; ret (mkSha (m_data s) 0 (u64 (m_bitlen s + 512)) (m_state s))
    else ret s) s.
(** sha256.cpp:136-165 *)
Definition t_pad (m st : list Z) (s : sha) : tr sha :=
  b <~ tbr (m_blocklen s <? 56) ;;
  let e := if b : bool then 56 else 64 in
  d <~ twr AData (m_data s) (m_blocklen s) 0x80 ;;
  d <~ tfor (Z.to_nat (e - (m_blocklen s + 1))) (m_blocklen s + 1) (fun i d => twr AData d i 0) d ;;
  let s := mkSha d (m_blocklen s) (m_bitlen s) (m_state s) in
  b <~ tbr (56 <=? m_blocklen s) ;;
  s <~ (if b : bool then
          s <~ t_transform m st s ;; d <~ twrange AData (m_data s) 0 (repeat 0 56) ;; ret (mkSha d (m_blocklen s) (m_bitlen s) (m_state s))
        else ret s) ;;
  let bl := u64 (m_bitlen s + m_blocklen s * 8) in
  d <~ twr AData (m_data s) 63 (u8 bl) ;; d <~ twr AData d 62 (u8 (Z.shiftr bl 8)) ;; d <~ twr AData d 61 (u8 (Z.shiftr bl 16)) ;;
  d <~ twr AData d 60 (u8 (Z.shiftr bl 24)) ;; d <~ twr AData d 59 (u8 (Z.shiftr bl 32)) ;; d <~ twr AData d 58 (u8 (Z.shiftr bl 40)) ;;
  d <~ twr AData d 57 (u8 (Z.shiftr bl 48)) ;; d <~ twr AData d 56 (u8 (Z.shiftr bl 56)) ;;
  t_transform m st (mkSha d (m_blocklen s) bl (m_state s)).
(** sha256.cpp:167-178; hash is the array a, of which the 32 bytes at off are written *)
Definition t_revert (s : sha) (a : arr) (off : Z) (hash : list Z) : tr (list Z) :=
  tfor 4 0 (fun i => tfor 8 0 (fun j hash =>
    x <~ trd AState (m_state s) j ;; logged (EWr a (off + (i + j * 4))) (wr hash (i + j * 4) (Z.land (Z.shiftr x (24 - i * 8)) 0xff)))) hash.
(** sha256.cpp:51-58; the cast of the pointer and the final placing of the 32 bytes are no accesses *)
Definition t_digest (m st : list Z) (s : sha) (a : arr) (out : list Z) (off : Z) : tr (list Z) :=
  s <~ t_pad m st s ;;
  fun l => match rd_range out off 32 with
           | Some h => match t_revert s a off h l with
                       | Some (h, l) => match wr_range out off h with Some o => Some (o, l) | None => None end
                       | None => None
                       end
           | None => None
           end.
(** one object of class sha256: update for every part (array, its contents, offset, length), then digest to a + off *)
Definition tpart := (arr * (list Z * Z * Z))%type.
Fixpoint t_updates (m st : list Z) (parts : list tpart) (s : sha) : tr sha :=
  match parts with
  | [] => ret s
  | (a, (arr, off, n)) :: parts =>
      s <~ (fun l => match rd_range arr off n with Some data => t_update m st s a off data l | None => None end) ;;
      t_updates m st parts s
  end.
Definition t_sha (u : junk) (parts : list tpart) (a : arr) (out : list Z) (off : Z) : tr (list Z) :=
  s <~ t_updates (u_m u) (u_st u) parts (sha_init (u_d0 u)) ;; t_digest (u_m u) (u_st u) s a out off.

(** signatures.cpp:14-63.  Arrays: opad 1, ipad 2, _key 3, mac 4; inp and key are ain and akey *)
Definition t_hmac (u : junk) (opad ipad _key mac : list Z) (ain : arr) (inp : list Z) (in_len : Z) (akey : arr) (key : list Z) (key_len : Z) : tr (list Z) :=
  b <~ tbr (64 <? key_len) ;;
  kl <~ (if b : bool then k <~ t_sha u [(akey, (key, 0, key_len))] (AUser 3) _key 0 ;; ret (k, k, 32) else ret (_key, key, key_len)) ;;
  let akey := if b then AUser 3 else akey in
  let _key := fst (fst kl) in let key := snd (fst kl) in let key_len := snd kl in
  src <~ trange akey key 0 key_len ;; _key <~ twrange (AUser 3) _key 0 src ;; _key <~ twrange (AUser 3) _key key_len (repeat 0 (Z.to_nat (64 - key_len))) ;;
  oi <~ tfor 64 0 (fun i oi => k <~ trd (AUser 3) _key i ;; o <~ twr (AUser 1) (fst oi) i (Z.lxor 0x5C k) ;; p <~ twr (AUser 2) (snd oi) i (Z.lxor 0x36 k) ;; ret (o, p)) (opad, ipad) ;;
  src <~ trange ain inp 0 in_len ;; ipad <~ twrange (AUser 2) (snd oi) 64 src ;;
  opad <~ t_sha u [(AUser 2, (ipad, 0, 64 + in_len))] (AUser 1) (fst oi) 64 ;;
  t_sha u [(AUser 1, (opad, 0, 64 + 32))] (AUser 4) mac 0.
(** signatures.cpp:105-138.  Arrays: T 4 (the mac of the calls), hmacInput1 5, hmacInput 6, prk 7, info 8, okm 9 *)
Fixpoint t_expand_loop (u : junk) (opad : list Z) (ip : Z -> list Z) (_key : list Z) (n : nat) (i L : Z) (prk info : list Z) (infoLen : Z) (T h1 h2 okm : list Z) (w : Z) : tr (Z * list Z) :=
  match n with
  | O => b <~ tbr (w =? L) ;; if b : bool then ret (0, okm) else ret (-5, okm)
  | S n =>
      b <~ tbr (i =? 1) ;;
      inf <~ trange (AUser 8) info 0 infoLen ;;
      r <~ (if b : bool then
              h1 <~ twrange (AUser 5) h1 0 inf ;; h1 <~ twr (AUser 5) h1 infoLen (u8 i) ;;
              T <~ t_hmac u opad (ip (infoLen + 1)) _key T (AUser 5) h1 (infoLen + 1) (AUser 7) prk 32 ;; ret (T, h1, h2)
            else
              t <~ trange (AUser 4) T 0 32 ;; h2 <~ twrange (AUser 6) h2 0 t ;; h2 <~ twrange (AUser 6) h2 32 inf ;; h2 <~ twr (AUser 6) h2 (32 + infoLen) (u8 i) ;;
              T <~ t_hmac u opad (ip (32 + infoLen + 1)) _key T (AUser 6) h2 (32 + infoLen + 1) (AUser 7) prk 32 ;; ret (T, h1, h2)) ;;
      let '(T, h1, h2) := r in
      let to_write := L - w in
      b <~ tbr (32 <? to_write) ;;
      let to_write := if b : bool then 32 else to_write in
      b <~ tbr ((to_write <=? 0) || (32 <? to_write)) ;;
      if b : bool then ret (-4, okm)
      else src <~ trange (AUser 4) T 0 to_write ;; okm <~ twrange (AUser 9) okm w src ;;
           t_expand_loop u opad ip _key n (i + 1) L prk info infoLen T h1 h2 okm (w + to_write)
  end.
(** signatures.cpp:80-147 *)
Definition t_expand (u : junk) (opad : list Z) (ip : Z -> list Z) (_key T h1 h2 okm prk info : list Z) (infoLen : Z) : tr (Z * list Z) :=
  let L := Z.of_nat (length okm) in
  b <~ tbr (255 * 32 <? L) ;;
  if b : bool then ret (-1, okm)
  else let N := (L + 31) / 32 in
    b <~ tbr ((N <? 1) || (255 <? N)) ;;
    if b : bool then ret (-3, okm) else t_expand_loop u opad ip _key (Z.to_nat N) 1 L prk info infoLen T h1 h2 okm 0.
