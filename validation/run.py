#!/usr/bin/env python3
"""Runs the model on the known answers of /repo/test.

usage: validation/run.py [scratch directory]     (after `make` in /verif/rocq; needs ocamlfind and zarith)

This is a test of the model, not a proof, and no theorem depends on it.  The definitions of the Model files are
extracted to OCaml (Z as zarith integers), the expected values are read as text from /repo/test/unittests.cpp and
/repo/test/test_vectors.inc, and the driver below repeats the unit tests that carry expected values (and some of
those that only relate results to each other).  Nothing of /repo is built or run.
"""
import os, re, subprocess, sys, tempfile
HERE = os.path.dirname(os.path.abspath(__file__))
THEORIES = os.path.join(HERE, '..', 'rocq', 'theories')
REPO = '/repo'

EXTRACT = r'''From Coq Require Import ZArith List Extraction ExtrOcamlBasic ExtrOcamlZBigInt ExtrOcamlNatInt.
From Verif Require Import ModelWord ModelScalar ModelPrim ModelFp ModelTower ModelCurve ModelCodec ModelSha ModelKdf ModelDiv ModelKeys ModelSig ModelPairing ModelMap PortArith ModelLimb X86 AsmCode.
Extract Inlined Constant Z.shiftl => "(fun x n -> Zz.shift_left x (Zz.to_int n))".
Extract Inlined Constant Z.shiftr => "(fun x n -> Zz.shift_right x (Zz.to_int n))".
Extract Inlined Constant Z.land => "Zz.logand".
Extract Inlined Constant Z.lor => "Zz.logor".
Extract Inlined Constant Z.lxor => "Zz.logxor".
Extract Inlined Constant Z.pow => "(fun x n -> Zz.pow x (Zz.to_int n))".
Extract Inlined Constant Z.log2 => "(fun x -> if Zz.sign x <= 0 then Zz.zero else Zz.of_int (Zz.numbits x - 1))".
Extract Inlined Constant Z.rem => "Zz.rem".
Extract Inlined Constant Z.testbit => "(fun x n -> Zz.testbit x (Zz.to_int n))".
Extraction "model.ml" sign verify public_key aggregate_verify aggregate_signatures aggregate_public_keys aggregate_secret_keys pop_prove pop_verify pop_fast_aggregate_verify secret_key derive_child_sk derive_child_sk_unhardened derive_child_g1_unhardened derive_child_g2_unhardened sk_from_bytes sk_to_bytes calculate g1_mapToCurve g2_mapToCurve g1_fromCompressed g2_fromCompressed g1_toCompressed g2_toCompressed g1_fromJacobianBE g1_fromJacobianLE g1_fromAffineBE g1_fromAffineLE g1_toJacobianBE g1_toJacobianLE g1_toAffineBE g1_toAffineLE g2_fromJacobianBE g2_fromJacobianLE g2_fromAffineBE g2_fromAffineLE g2_toJacobianBE g2_toJacobianLE g2_toAffineBE g2_toAffineLE g1_weightedSum g2_weightedSum g1_scale g2_scale g1_BASE g2_BASE fromMessage CIPHERSUITE_ID POP_CIPHERSUITE_ID fp_fromBytesBE fp_fromBytesLE fp_toBytesBE fp2_fromBytesBE fp12_fromBytesBE fp12_equal fp12_isGtValid fp12_isOne fp12_cycExp fp_inverse fp_exp fp_sqrt modPrime fp_toMont fp_fromMont fp_ldouble fp_double fp2_inv fp2_sqrt fp6_inv fp12_inv g1_equal g2_equal g1_affine g2_affine g1_add g2_add g1_neg g1_dbl g1_isOnCurve g2_isOnCurve g1_inCorrectSubgroup g2_inCorrectSubgroup add_pair scalar_multiply scalar_add fromBytesBE toBytesBE fp2_sqr fp2_equal fp2_mul fp2_one fp6_mul fp6_equal fp6_one fp12_mul fp12_one fp2_neg sha256.
'''

DRIVER = r'''open Model
let zi = Zz.of_int
let strip s = if String.length s >= 2 && s.[0]='0' && s.[1]='x' then String.sub s 2 (String.length s - 2) else s
let hex s = let s = strip s in List.init (String.length s / 2) (fun i -> zi (int_of_string ("0x" ^ String.sub s (2*i) 2)))
let tohex l = String.concat "" (List.map (fun x -> Printf.sprintf "%02x" (Zz.to_int x)) l)
let bytes l = List.map zi l
let str s = List.init (String.length s) (fun i -> zi (Char.code s.[i]))
let ok = function Ok x -> x | Throw -> failwith "throw" | OutOfBounds -> failwith "oob"
let some = function Some x -> x | None -> failwith "none"
let npass = ref 0 and nfail = ref 0
let chk name b = if b then incr npass else (incr nfail; Printf.printf "FAIL %s\n%!" name)
let seed n b = List.init n (fun _ -> zi b)
let sk s = some (ok (secret_key 10 s))
let limbs l = List.map Zz.of_string l
let p48 s = some (fp_fromBytesBE (hex s) true true)
let sect s = Printf.printf "%s pass=%d fail=%d t=%.1f\n%!" s !npass !nfail (Sys.time ())
let eip (s,m,c,i) =
  let ms = sk (hex s) in chk ("eip m "^s) (tohex (toBytesBE ms) = strip m);
  let cs = some (ok (derive_child_sk 10 ms (Zz.of_string i))) in chk ("eip c "^s) (tohex (toBytesBE cs) = strip c)
let () =
  List.iter eip [
 "3141592653589793238462643383279502884197169399375105820974944592","4ff5e145590ed7b71e577bb04032396d1619ff41cb4e350053ed2dce8d1efd1c","5c62dcf9654481292aafa3348f1d1b0017bbfb44d6881d26d2b17836b38f204d","3141592653";
 "0x0099FF991111002299DD7744EE3355BBDD8844115566CC55663355668888CC00","1ebd704b86732c3f05f30563dee6189838e73998ebc9c209ccff422adee10c4b","1b98db8b24296038eae3f64c25d693a269ef1e4d7ae0f691c572a46cf3c0913c","4294967295";
 "0xd4e56740f876aef8c010b86a40d5f56745a118d0906a34e69aec8c0db1cb8fa3","614d21b10c0e4996ac0608e0e7452d5720d95d20fe03c59a3321000a42432e1a","08de7136e4afc56ae3ec03b20517d9c1232705a747f588fd17832f36ae337526","42";
 "c55257c360c07c72029aebc1b53c05ed0362ada38ead3e3e9efa3708e53495531f09a6987599d18264c1e1c92f2cf141630c7a3c4ab7c81b2f001698e7463b04","0x0befcabff4a664461cc8f190cdd51c05621eb2837c71a1362df5b465a674ecfb","1a1de3346883401f1e3b2281be5774080edb8e5ebe6f776b0f7af9fea942553a","0"];
  sect "EIP2333";
  Array.iter (fun (u,x,y) -> chk "g1map" (g1_equal (g1_mapToCurve (p48 u)) {jx = p48 x; jy = p48 y; jz = fp_one})) Tv.m1;
  sect "G1Map";
  let p96 s = some (fp2_fromBytesBE (hex s) true true) in
  Array.iter (fun (u,x,y) -> chk "g2map" (g2_equal (g2_mapToCurve (p96 u)) {jx = p96 x; jy = p96 y; jz = fp2_one})) Tv.m2;
  sect "G2Map";
  let e = some (fp12_fromBytesBE (hex Tv.pair_exp) true true) in
  let r = ok (calculate (add_pair [] g1_BASE g2_BASE)) in
  chk "pairing" (fp12_equal r e); chk "gt" (fp12_isGtValid r);
  sect "Pairing";
  let ietf = "96ba34fac33c7f129d602a0bc8a3d43f9abc014eceaab7359146b4b150e57b808645738f35671e9e10e0d862a30cab70074eb5831d13e6a5b162d01eebe687d0164adbd0a864370a7c222a2768d7704da254f1bf1823665bc2361f9dd8c00e99" in
  let s = ok (sk_from_bytes (hex "0101010101010101010101010101010101010101010101010101010101010101") false) in
  let sg = g2_affine (ok (sign s (bytes [3;1;4;1;5;9]))) in
  chk "ietf hex" (tohex (g2_toCompressed sg) = ietf);
  chk "ietf pt" (g2_equal sg (some (g2_fromCompressed (hex ietf))));
  sect "IETF";
  let pm1 = "1A0111EA397FE69A4B1BA7B6434BACD764774B84F38512BF6730D2A0F6B0F6241EABFFFEB153FFFFB9FEFFFFFFFFAAAA" in
  let z n = String.make n '0' in
  let one48 = z 95 ^ "1" and zero48 = z 96 in
  List.iter (fun (a,b) -> chk "mod" (ok (modPrime (fromBytesBE 8 (hex a))) = some (fp_fromBytesBE (hex b) false true)))
    [z 127 ^ "1", one48; z 128, zero48; z 32 ^ pm1, pm1; z 32 ^ String.sub pm1 0 95 ^ "B", zero48; z 32 ^ String.sub pm1 0 95 ^ "C", one48];
  List.iter (fun (a,b,c) -> chk "exp" (fp_exp (some (fp_fromBytesBE (hex b) false true)) (fromBytesBE 8 (hex a)) = some (fp_fromBytesBE (hex c) false true)))
    [z 127 ^ "1",one48,one48; z 128,one48,one48; z 128,zero48,one48; z 32 ^ pm1,pm1,one48];
  let rpm1 = some (fp_fromBytesBE (hex pm1) false false) in
  chk "inv" (fp_inverse fp_one = fp_one && fp_mul rpm1 (fp_inverse rpm1) = fp_one);
  sect "Mod/Exp/Inverse";
  (* out of range inputs *)
  let oor v n = let a = ref v and a2 = ref (fp_toMont (fp_fromMont v)) in
    for _=1 to n do a := fp_ldouble !a; a2 := fp_double !a2 done;
    chk "oor" (fp_mul !a !a = fp_mul !a2 !a2) in
  let pp = some (fp_fromBytesBE (hex (String.sub pm1 0 95 ^ "B")) false false) in
  oor rpm1 0; oor rpm1 1; oor rpm1 2; oor pp 0; oor pp 1; oor (some (fp_fromBytesBE (hex ("4" ^ z 95)) false false)) 0;
  sect "OutOfRange";
  let f = seed 144 255 in let rec tk n l = if n=0 then [] else List.hd l :: tk (n-1) (List.tl l) in
  List.iter (fun (c,m) -> chk "garbage" (g1_fromJacobianBE f c m = None && g1_fromJacobianLE f c m = None && g1_fromAffineBE (tk 96 f) c m = None && g1_fromAffineLE (tk 96 f) c m = None);
    let f2 = seed 288 255 in
    chk "garbage2" (g2_fromJacobianBE f2 c m = None && g2_fromJacobianLE f2 c m = None && g2_fromAffineBE (tk 192 f2) c m = None && g2_fromAffineLE (tk 192 f2) c m = None))
   [true,true;true,false;false,true;false,false];
  sect "Garbage";
  let g = {jx = val0 (limbs ["3417891934972824866";"15033698923095482284";"4308006749155089476";"12106291570202121725";"2599277836029828640";"312782107632090658"]);
           jy = val0 (limbs ["5205587738984789115";"5067874624690748468";"13190631992216725609";"11345201024832610071";"14051629697167006557";"393909533259831005"]);
           jz = val0 (limbs ["3721446142051153446";"12426141085104671205";"9131026636729359854";"3777282351912617648";"11898443449281733652";"518350083385915957"])} in
  let s1 = limbs ["709522381180683898";"6180605729922878966";"17818642988822031089";"2436448532036587648"] and s2 = limbs ["13638846313248189432";"13997190380171701873";"13650465545368734818";"6581793109286319586"] in
  chk "g on curve" (g1_isOnCurve g);
  chk "mult" (g1_equal (g1_scale (g1_scale g s1) s2) (g1_scale g (ok (scalar_multiply 10 s1 s2))));
  chk "addm" (g1_equal (g1_add (g1_scale g s1) (g1_scale g s2)) (g1_scale g (ok (scalar_add 10 s1 s2))));
  let w4 a = [zi a; zi 0; zi 0; zi 0] in
  chk "ws1" (g1_equal (g1_weightedSum [g1_BASE;g1_BASE] [w4 2;w4 3]) (g1_scale g1_BASE [zi 5]));
  chk "ws2" (g2_equal (g2_weightedSum [g2_BASE;g2_BASE] [w4 2;w4 3]) (g2_scale g2_BASE [zi 5]));
  (* affine/jacobian/compressed round trips *)
  chk "ser" (g1_equal g (some (g1_fromJacobianBE (g1_toJacobianBE g true) true true)) && g1_equal g (some (g1_fromJacobianLE (g1_toJacobianLE g true) true true))
     && g1_equal g (some (g1_fromAffineBE (g1_toAffineBE g true) true true)) && g1_equal g (some (g1_fromAffineLE (g1_toAffineLE g true) true true)) && g1_equal g (some (g1_fromCompressed (g1_toCompressed g))));
  sect "Mult/WS/Ser";
  (* weighted sums at batch sizes *)
  Random.init 7;
  let rnd4 () = List.init 4 (fun i -> Zz.of_string (Printf.sprintf "%Lu" (let r = Random.int64 Int64.max_int in if i = 3 then Int64.shift_right r 1 else Int64.add r (if Random.bool () then Int64.min_int else 0L)))) in
  List.iter (fun n ->
    let ps = List.init n (fun _ -> g1_scale g1_BASE (rnd4 ())) and ss = List.init n (fun _ -> rnd4 ()) in
    let ex = List.fold_left2 (fun a p s -> g1_add a (g1_scale p s)) g1_zero ps ss in
    chk (Printf.sprintf "wsb %d" n) (g1_equal ex (g1_weightedSum ps ss))) [0;1;2;31;32;33];
  sect "WSBatch";
  (* Chia vectors *)
  let m l = bytes l in
  let m1 = m [7;8;9] and m2 = m [10;11;12] in
  let sk1 = sk (seed 32 0) and sk2 = sk (seed 32 1) in
  let pk1 = public_key sk1 and pk2 = public_key sk2 in
  let sg1 = ok (sign sk1 m1) and sg2 = ok (sign sk2 m2) in
  chk "chia v1" (ok (verify pk1 m1 sg1)); chk "chia v2" (ok (verify pk2 m2 sg2)); chk "chia wrong" (not (ok (verify pk1 m2 sg1)));
  chk "chia agg" (ok (aggregate_verify [pk1;pk2] [m1;m2] (aggregate_signatures [sg1;sg2]) false));
  sect "Chia";
  let sd b = sk (seed 32 b) in
  let sk1 = sd 2 and sk2 = sd 3 in
  let pk1 = public_key sk1 and pk2 = public_key sk2 in
  let a=m [1;2;3;40] and b=m [5;6;70;201] and c=m [9;10;11;12;13] and d=m [15;63;244;92;0;1] in
  let sn k x = ok (sign k x) in
  let ag = aggregate_signatures [aggregate_signatures [sn sk1 a; sn sk2 b]; aggregate_signatures [sn sk2 a; sn sk1 c; sn sk1 a]; sn sk1 d] in
  chk "chia2" (ok (aggregate_verify [pk1;pk2;pk2;pk1;pk1;pk1] [a;b;a;c;a;d] ag false));
  chk "chia2dup" (not (ok (aggregate_verify [pk1;pk2;pk2;pk1;pk1;pk1] [a;b;a;c;a;d] ag true)));
  sect "Chia2";
  (* aggregate sks *)
  let msg = m [100;2;254;88;90;45;23] in
  let sk1 = sd 7 and sk2 = sd 8 in let pk1 = public_key sk1 and pk2 = public_key sk2 in
  let ask = ok (aggregate_secret_keys [sk1;sk2]) in
  chk "ask" (ask = ok (aggregate_secret_keys [sk2;sk1]));
  let apk = g1_add pk1 pk2 in chk "apk" (g1_equal apk (public_key ask));
  let as1 = aggregate_signatures [sn sk1 msg; sn sk2 msg] in chk "asig" (g2_equal as1 (sn ask msg));
  chk "averify" (ok (verify apk msg as1));
  chk "aggv dup" (not (ok (aggregate_verify [pk1;pk2] [msg;msg] as1 true)));
  let msg2 = m [200;29;54;8;9;29;155;55] in
  let fin = aggregate_signatures [as1; sn sk2 msg2] in
  chk "fin" (ok (aggregate_verify [apk;pk2] [msg;msg2] fin true));
  sect "AggSK";
  let sk1 = sd 6 and sk2 = sd 7 in let pk1 = public_key sk1 and pk2 = public_key sk2 in
  let pr = ok (pop_prove sk1) in chk "pop" (ok (pop_verify pk1 pr)); chk "popw" (not (ok (pop_verify pk2 pr)));
  chk "fast" (ok (pop_fast_aggregate_verify [pk1;pk2] m1 (aggregate_signatures [sn sk1 m1; sn sk2 m1])));
  chk "fastw" (not (ok (pop_fast_aggregate_verify [pk1;pk2] m2 (aggregate_signatures [sn sk1 m1; sn sk2 m1]))));
  sect "Pop";
  (* unhardened *)
  let s = sk (m [1;50;6;244;24;199;1;25;1;2;3;4;5;6;7;8;9;10;11;12;13;14;15;16;17;18;19;20;21;22;23;24;25;26;27;28;29]) in
  let cs = ok (derive_child_sk_unhardened s (zi 42)) and cp = ok (derive_child_g1_unhardened (public_key s) (zi 42)) in
  chk "unh" (g1_equal (public_key cs) cp);
  let gs = ok (derive_child_sk_unhardened cs (zi 12142)) and gp = ok (derive_child_g1_unhardened cp (zi 12142)) in
  chk "unh2" (g1_equal (public_key gs) gp);
  sect "Unhardened";
  let n = Array.length Tv.tv_msg in
  for i = 0 to n-1 do
    let msg = str Tv.tv_msg.(i) in
    let h = ok (fromMessage msg cIPHERSUITE_ID) in
    chk "x hash" (tohex (g2_toCompressed h) = Tv.tv_g2.(i));
    chk "x hash pt" (g2_equal (g2_affine h) (some (g2_fromCompressed (hex Tv.tv_g2.(i)))));
    let k = ok (sk_from_bytes (hex Tv.tv_priv.(i)) false) in
    let sg = sn k msg in
    chk "x sig" (tohex (g2_toCompressed sg) = Tv.tv_sig.(i));
    chk "x sig pt" (g2_equal sg (some (g2_fromCompressed (hex Tv.tv_sig.(i)))));
    let pk = public_key k in
    chk "x pk" (tohex (g1_toCompressed pk) = Tv.tv_pub.(i));
    chk "x pk pt" (g1_equal pk (some (g1_fromCompressed (hex Tv.tv_pub.(i)))));
    chk "x ver" (ok (verify pk msg sg));
  done;
  sect "ExtraVectors";
  exit (if !nfail = 0 then 0 else 1)
'''


def vectors():
    """The literals of the test files, as OCaml arrays."""
    out = []
    t = open(REPO + '/test/test_vectors.inc').read()
    for m in re.finditer(r'const char \* (tv_\w+)\[\] = \{(.*?)\};', t, re.S):
        xs = re.findall(r'"([^"]*)"', m[2])
        out.append('let %s = [|%s|]' % (m[1], ';'.join('"%s"' % x for x in xs)))
    u = open(REPO + '/test/unittests.cpp').read()

    def body(n):
        i = u.index('void %s(' % n)
        return u[i:u.index('\nvoid ', i + 5)]
    for n, k, name in (('TestG1MapToCurve', 48, 'm1'), ('TestG2MapToCurve', 96, 'm2')):
        rows = []
        for m in re.finditer(r'pair\{\s*array<uint8_t, \d+>\{([^}]*)\},(.*?)one\(\)', body(n), re.S):
            by = [int(x, 0) for x in m[1].split(',')]
            hx = re.findall(r'"([0-9a-f]+)"', m[2])
            assert len(by) == k and len(hx) == 2
            rows.append('("%s","%s","%s")' % (bytes(by).hex(), hx[0], hx[1]))
        assert len(rows) == 5
        out.append('let %s = [|%s|]' % (name, ';'.join(rows)))
    out.append('let pair_exp = "%s"' % ''.join(re.findall(r'"([0-9a-f]+)"', body('TestPairingExpected'))))
    return '\n'.join(out) + '\n'


def fold_literals(s):
    """Extraction writes a literal as nested doublings, too deep for ocamlopt: write decimal strings instead."""
    s = re.sub(r'\(fun x ->\s+Big_int_Z\.succ_big_int\s+\(Big_int_Z\.mult_int_big_int\s+2\s+x\)\)', 'D1', s)
    s = s.replace('Big_int_Z.unit_big_int', 'LIT{1}')
    n = 1
    while n:
        s, n1 = re.subn(r'\(D1\s+LIT\{(\d+)\}\)', lambda m: 'LIT{%d}' % (2 * int(m[1]) + 1), s)
        s, n2 = re.subn(r'\(Big_int_Z\.mult_int_big_int\s+2\s+LIT\{(\d+)\}\)', lambda m: 'LIT{%d}' % (2 * int(m[1])), s)
        n = n1 + n2
    lits = {}
    s = re.sub(r'LIT\{(\d+)\}', lambda m: 'Big_int_Z.unit_big_int' if m[1] == '1' else lits.setdefault(m[1], 'lit%d' % len(lits)), s)
    s = s.replace('D1', '(fun x -> Big_int_Z.succ_big_int (Big_int_Z.mult_int_big_int 2 x))')
    return ''.join('let %s = Zz.of_string "%s"\n' % (v, k) for k, v in lits.items()) + s


def main():
    d = sys.argv[1] if len(sys.argv) > 1 else tempfile.mkdtemp()
    os.makedirs(d, exist_ok=True)

    def put(name, text):
        open(os.path.join(d, name), 'w').write(text)
    put('ex.v', EXTRACT)
    subprocess.check_call(['coqc', '-Q', THEORIES, 'Verif', 'ex.v'], cwd=d)
    put('model.ml', fold_literals(open(os.path.join(d, 'model.ml')).read()))
    os.remove(os.path.join(d, 'model.mli'))
    put('zz.ml', 'include Z\n')
    put('tv.ml', vectors())
    put('drv.ml', DRIVER)
    subprocess.check_call('ocamlfind ocamlopt -w -a -package zarith -linkpkg zz.ml model.ml tv.ml drv.ml -o drv', shell=True, cwd=d)
    sys.exit(subprocess.call('ulimit -s unlimited; ./drv', shell=True, cwd=d))


main()
