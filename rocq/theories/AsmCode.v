(** Instruction lists of src/arithmetic.s, transcribed mechanically (one constructor per instruction,
    in file order; the final retq of each function is dropped, comments dropped).  Long functions are cut
    into consecutive pieces at the "# i0", "# i1", ... comments of the source. *)
From Coq Require Import ZArith List.
From Verif Require Import X86.
Import ListNotations.
Local Open Scope Z_scope.

(** src/arithmetic.s:7-60 *)
Definition asm_add : list instr := [
  Push (R R15);
  Push (R R14);
  Push (R R13);
  Push (R R12);
  Push (R RBX);
  Mov (R R8) (M RSI 0);
  Mov (R R9) (M RSI 8);
  Mov (R R10) (M RSI 16);
  Mov (R R11) (M RSI 24);
  Mov (R R12) (M RSI 32);
  Mov (R R13) (M RSI 40);
  Add (R R8) (M RDX 0);
  Adc (R R9) (M RDX 8);
  Adc (R R10) (M RDX 16);
  Adc (R R11) (M RDX 24);
  Adc (R R12) (M RDX 32);
  Adc (R R13) (M RDX 40);
  Mov (R R14) (R R8);
  Mov (R R15) (R R9);
  Mov (R RCX) (R R10);
  Mov (R RDX) (R R11);
  Mov (R RSI) (R R12);
  Mov (R RBX) (R R13);
  Mov (R RAX) (I 13402431016077863595);
  Sub (R R14) (R RAX);
  Mov (R RAX) (I 2210141511517208575);
  Sbb (R R15) (R RAX);
  Mov (R RAX) (I 7435674573564081700);
  Sbb (R RCX) (R RAX);
  Mov (R RAX) (I 7239337960414712511);
  Sbb (R RDX) (R RAX);
  Mov (R RAX) (I 5412103778470702295);
  Sbb (R RSI) (R RAX);
  Mov (R RAX) (I 1873798617647539866);
  Sbb (R RBX) (R RAX);
  Cmovae (R R8) (R R14);
  Cmovae (R R9) (R R15);
  Cmovae (R R10) (R RCX);
  Cmovae (R R11) (R RDX);
  Cmovae (R R12) (R RSI);
  Cmovae (R R13) (R RBX);
  Mov (M RDI 0) (R R8);
  Mov (M RDI 8) (R R9);
  Mov (M RDI 16) (R R10);
  Mov (M RDI 24) (R R11);
  Mov (M RDI 32) (R R12);
  Mov (M RDI 40) (R R13);
  Pop RBX;
  Pop R12;
  Pop R13;
  Pop R14;
  Pop R15 ].

(** src/arithmetic.s:66-85 *)
Definition asm_ladd : list instr := [
  Mov (R R8) (M RSI 0);
  Mov (R R9) (M RSI 8);
  Mov (R R10) (M RSI 16);
  Mov (R R11) (M RSI 24);
  Mov (R RCX) (M RSI 32);
  Mov (R RAX) (M RSI 40);
  Add (R R8) (M RDX 0);
  Adc (R R9) (M RDX 8);
  Adc (R R10) (M RDX 16);
  Adc (R R11) (M RDX 24);
  Adc (R RCX) (M RDX 32);
  Adc (R RAX) (M RDX 40);
  Mov (M RDI 0) (R R8);
  Mov (M RDI 8) (R R9);
  Mov (M RDI 16) (R R10);
  Mov (M RDI 24) (R R11);
  Mov (M RDI 32) (R RCX);
  Mov (M RDI 40) (R RAX) ].

(** src/arithmetic.s:91-144 *)
Definition asm_double : list instr := [
  Push (R R15);
  Push (R R14);
  Push (R R13);
  Push (R R12);
  Push (R RBX);
  Mov (R R8) (M RSI 0);
  Mov (R R9) (M RSI 8);
  Mov (R R10) (M RSI 16);
  Mov (R R11) (M RSI 24);
  Mov (R R12) (M RSI 32);
  Mov (R R13) (M RSI 40);
  Add (R R8) (R R8);
  Adc (R R9) (R R9);
  Adc (R R10) (R R10);
  Adc (R R11) (R R11);
  Adc (R R12) (R R12);
  Adc (R R13) (R R13);
  Mov (R R14) (R R8);
  Mov (R R15) (R R9);
  Mov (R RCX) (R R10);
  Mov (R RDX) (R R11);
  Mov (R RSI) (R R12);
  Mov (R RBX) (R R13);
  Mov (R RAX) (I 13402431016077863595);
  Sub (R R14) (R RAX);
  Mov (R RAX) (I 2210141511517208575);
  Sbb (R R15) (R RAX);
  Mov (R RAX) (I 7435674573564081700);
  Sbb (R RCX) (R RAX);
  Mov (R RAX) (I 7239337960414712511);
  Sbb (R RDX) (R RAX);
  Mov (R RAX) (I 5412103778470702295);
  Sbb (R RSI) (R RAX);
  Mov (R RAX) (I 1873798617647539866);
  Sbb (R RBX) (R RAX);
  Cmovae (R R8) (R R14);
  Cmovae (R R9) (R R15);
  Cmovae (R R10) (R RCX);
  Cmovae (R R11) (R RDX);
  Cmovae (R R12) (R RSI);
  Cmovae (R R13) (R RBX);
  Mov (M RDI 0) (R R8);
  Mov (M RDI 8) (R R9);
  Mov (M RDI 16) (R R10);
  Mov (M RDI 24) (R R11);
  Mov (M RDI 32) (R R12);
  Mov (M RDI 40) (R R13);
  Pop RBX;
  Pop R12;
  Pop R13;
  Pop R14;
  Pop R15 ].

(** src/arithmetic.s:150-169 *)
Definition asm_ldouble : list instr := [
  Mov (R R8) (M RSI 0);
  Mov (R R9) (M RSI 8);
  Mov (R R10) (M RSI 16);
  Mov (R R11) (M RSI 24);
  Mov (R RCX) (M RSI 32);
  Mov (R RAX) (M RSI 40);
  Add (R R8) (R R8);
  Adc (R R9) (R R9);
  Adc (R R10) (R R10);
  Adc (R R11) (R R11);
  Adc (R RCX) (R RCX);
  Adc (R RAX) (R RAX);
  Mov (M RDI 0) (R R8);
  Mov (M RDI 8) (R R9);
  Mov (M RDI 16) (R R10);
  Mov (M RDI 24) (R R11);
  Mov (M RDI 32) (R RCX);
  Mov (M RDI 40) (R RAX) ].

(** src/arithmetic.s:175-223 *)
Definition asm_subtract : list instr := [
  Push (R R15);
  Push (R R14);
  Push (R R13);
  Push (R R12);
  Push (R RBX);
  Xor (R RAX) (R RAX);
  Mov (R R8) (M RSI 0);
  Mov (R R9) (M RSI 8);
  Mov (R R10) (M RSI 16);
  Mov (R R11) (M RSI 24);
  Mov (R R12) (M RSI 32);
  Mov (R R13) (M RSI 40);
  Sub (R R8) (M RDX 0);
  Sbb (R R9) (M RDX 8);
  Sbb (R R10) (M RDX 16);
  Sbb (R R11) (M RDX 24);
  Sbb (R R12) (M RDX 32);
  Sbb (R R13) (M RDX 40);
  Mov (R R14) (I 13402431016077863595);
  Mov (R R15) (I 2210141511517208575);
  Mov (R RCX) (I 7435674573564081700);
  Mov (R RDX) (I 7239337960414712511);
  Mov (R RSI) (I 5412103778470702295);
  Mov (R RBX) (I 1873798617647539866);
  Cmovae (R R14) (R RAX);
  Cmovae (R R15) (R RAX);
  Cmovae (R RCX) (R RAX);
  Cmovae (R RDX) (R RAX);
  Cmovae (R RSI) (R RAX);
  Cmovae (R RBX) (R RAX);
  Add (R R8) (R R14);
  Adc (R R9) (R R15);
  Adc (R R10) (R RCX);
  Adc (R R11) (R RDX);
  Adc (R R12) (R RSI);
  Adc (R R13) (R RBX);
  Mov (M RDI 0) (R R8);
  Mov (M RDI 8) (R R9);
  Mov (M RDI 16) (R R10);
  Mov (M RDI 24) (R R11);
  Mov (M RDI 32) (R R12);
  Mov (M RDI 40) (R R13);
  Pop RBX;
  Pop R12;
  Pop R13;
  Pop R14;
  Pop R15 ].

(** src/arithmetic.s:229-248 *)
Definition asm_lsubtract : list instr := [
  Mov (R R8) (M RSI 0);
  Mov (R R9) (M RSI 8);
  Mov (R R10) (M RSI 16);
  Mov (R R11) (M RSI 24);
  Mov (R RCX) (M RSI 32);
  Mov (R RAX) (M RSI 40);
  Sub (R R8) (M RDX 0);
  Sbb (R R9) (M RDX 8);
  Sbb (R R10) (M RDX 16);
  Sbb (R R11) (M RDX 24);
  Sbb (R RCX) (M RDX 32);
  Sbb (R RAX) (M RDX 40);
  Mov (M RDI 0) (R R8);
  Mov (M RDI 8) (R R9);
  Mov (M RDI 16) (R R10);
  Mov (M RDI 24) (R R11);
  Mov (M RDI 32) (R RCX);
  Mov (M RDI 40) (R RAX) ].

(** src/arithmetic.s:254-273 *)
Definition asm_negate : list instr := [
  Mov (R R8) (I 13402431016077863595);
  Mov (R R9) (I 2210141511517208575);
  Mov (R R10) (I 7435674573564081700);
  Mov (R R11) (I 7239337960414712511);
  Mov (R RCX) (I 5412103778470702295);
  Mov (R RAX) (I 1873798617647539866);
  Sub (R R8) (M RSI 0);
  Sbb (R R9) (M RSI 8);
  Sbb (R R10) (M RSI 16);
  Sbb (R R11) (M RSI 24);
  Sbb (R RCX) (M RSI 32);
  Sbb (R RAX) (M RSI 40);
  Mov (M RDI 0) (R R8);
  Mov (M RDI 8) (R R9);
  Mov (M RDI 16) (R R10);
  Mov (M RDI 24) (R R11);
  Mov (M RDI 32) (R RCX);
  Mov (M RDI 40) (R RAX) ].

(** src/arithmetic.s:279-314 *)
Definition asm_multiply_prologue : list instr := [
  Push (R RBP);
  Push (R R15);
  Push (R R14);
  Push (R R13);
  Push (R R12);
  Push (R RBX);
  Mov (R RAX) (I 9940570264628428797);
  Push (R RAX);
  Mov (R RBP) (R RSP);
  Mov (R RAX) (I 13402431016077863595);
  Push (R RAX);
  Mov (R RAX) (I 2210141511517208575);
  Push (R RAX);
  Mov (R RAX) (I 7435674573564081700);
  Push (R RAX);
  Mov (R RAX) (I 7239337960414712511);
  Push (R RAX);
  Mov (R RAX) (I 5412103778470702295);
  Push (R RAX);
  Mov (R RAX) (I 1873798617647539866);
  Push (R RAX);
  Mov (R R9) (I 0);
  Mov (R R10) (I 0);
  Mov (R R11) (I 0);
  Mov (R R12) (I 0);
  Mov (R R13) (I 0);
  Mov (R R14) (I 0);
  Mov (R R15) (I 0);
  Push (R RDI);
  Mov (R RDI) (R RDX) ].

(** src/arithmetic.s:315-340 *)
Definition asm_multiply_i0 : list instr := [
  Mov (R RCX) (M RSI 0);
  Mov (R RAX) (M RDI 0);
  Mul (R RCX);
  Push (R RAX);
  Mov (R R8) (R RDX);
  Mov (R RAX) (M RDI 8);
  Mul (R RCX);
  Add (R R8) (R RAX);
  Adc (R R9) (R RDX);
  Mov (R RAX) (M RDI 16);
  Mul (R RCX);
  Add (R R9) (R RAX);
  Adc (R R10) (R RDX);
  Mov (R RAX) (M RDI 24);
  Mul (R RCX);
  Add (R R10) (R RAX);
  Adc (R R11) (R RDX);
  Mov (R RAX) (M RDI 32);
  Mul (R RCX);
  Add (R R11) (R RAX);
  Adc (R R12) (R RDX);
  Mov (R RAX) (M RDI 40);
  Mul (R RCX);
  Add (R R12) (R RAX);
  Adc (R R13) (R RDX) ].

(** src/arithmetic.s:341-381 *)
Definition asm_multiply_i1 : list instr := [
  Mov (R RCX) (M RSI 8);
  Mov (R RBX) (I 0);
  Mov (R RAX) (M RDI 0);
  Mul (R RCX);
  Add (R R8) (R RAX);
  Adc (R R9) (R RDX);
  Adc (R R10) (I 0);
  Adc (R RBX) (I 0);
  Push (R R8);
  Mov (R R8) (I 0);
  Mov (R RAX) (M RDI 8);
  Mul (R RCX);
  Add (R R9) (R RAX);
  Adc (R R10) (R RDX);
  Adc (R R11) (R RBX);
  Mov (R RBX) (I 0);
  Adc (R RBX) (I 0);
  Mov (R RAX) (M RDI 16);
  Mul (R RCX);
  Add (R R10) (R RAX);
  Adc (R R11) (R RDX);
  Adc (R R12) (R RBX);
  Mov (R RBX) (I 0);
  Adc (R RBX) (I 0);
  Mov (R RAX) (M RDI 24);
  Mul (R RCX);
  Add (R R11) (R RAX);
  Adc (R R12) (R RDX);
  Adc (R R13) (R RBX);
  Mov (R RBX) (I 0);
  Adc (R RBX) (I 0);
  Mov (R RAX) (M RDI 32);
  Mul (R RCX);
  Add (R R12) (R RAX);
  Adc (R R13) (R RDX);
  Adc (R R14) (R RBX);
  Mov (R RAX) (M RDI 40);
  Mul (R RCX);
  Add (R R13) (R RAX);
  Adc (R R14) (R RDX) ].

(** src/arithmetic.s:382-422 *)
Definition asm_multiply_i2 : list instr := [
  Mov (R RCX) (M RSI 16);
  Mov (R RBX) (I 0);
  Mov (R RAX) (M RDI 0);
  Mul (R RCX);
  Add (R R9) (R RAX);
  Adc (R R10) (R RDX);
  Adc (R R11) (I 0);
  Adc (R RBX) (I 0);
  Push (R R9);
  Mov (R R9) (I 0);
  Mov (R RAX) (M RDI 8);
  Mul (R RCX);
  Add (R R10) (R RAX);
  Adc (R R11) (R RDX);
  Adc (R R12) (R RBX);
  Mov (R RBX) (I 0);
  Adc (R RBX) (I 0);
  Mov (R RAX) (M RDI 16);
  Mul (R RCX);
  Add (R R11) (R RAX);
  Adc (R R12) (R RDX);
  Adc (R R13) (R RBX);
  Mov (R RBX) (I 0);
  Adc (R RBX) (I 0);
  Mov (R RAX) (M RDI 24);
  Mul (R RCX);
  Add (R R12) (R RAX);
  Adc (R R13) (R RDX);
  Adc (R R14) (R RBX);
  Mov (R RBX) (I 0);
  Adc (R RBX) (I 0);
  Mov (R RAX) (M RDI 32);
  Mul (R RCX);
  Add (R R13) (R RAX);
  Adc (R R14) (R RDX);
  Adc (R R15) (R RBX);
  Mov (R RAX) (M RDI 40);
  Mul (R RCX);
  Add (R R14) (R RAX);
  Adc (R R15) (R RDX) ].

(** src/arithmetic.s:423-461 *)
Definition asm_multiply_i3 : list instr := [
  Mov (R RCX) (M RSI 24);
  Mov (R RBX) (I 0);
  Mov (R RAX) (M RDI 0);
  Mul (R RCX);
  Add (R R10) (R RAX);
  Adc (R R11) (R RDX);
  Adc (R R12) (I 0);
  Adc (R RBX) (I 0);
  Mov (R RAX) (M RDI 8);
  Mul (R RCX);
  Add (R R11) (R RAX);
  Adc (R R12) (R RDX);
  Adc (R R13) (R RBX);
  Mov (R RBX) (I 0);
  Adc (R RBX) (I 0);
  Mov (R RAX) (M RDI 16);
  Mul (R RCX);
  Add (R R12) (R RAX);
  Adc (R R13) (R RDX);
  Adc (R R14) (R RBX);
  Mov (R RBX) (I 0);
  Adc (R RBX) (I 0);
  Mov (R RAX) (M RDI 24);
  Mul (R RCX);
  Add (R R13) (R RAX);
  Adc (R R14) (R RDX);
  Adc (R R15) (R RBX);
  Mov (R RBX) (I 0);
  Adc (R RBX) (I 0);
  Mov (R RAX) (M RDI 32);
  Mul (R RCX);
  Add (R R14) (R RAX);
  Adc (R R15) (R RDX);
  Adc (R R8) (R RBX);
  Mov (R RAX) (M RDI 40);
  Mul (R RCX);
  Add (R R15) (R RAX);
  Adc (R R8) (R RDX) ].

(** src/arithmetic.s:462-500 *)
Definition asm_multiply_i4 : list instr := [
  Mov (R RCX) (M RSI 32);
  Mov (R RBX) (I 0);
  Mov (R RAX) (M RDI 0);
  Mul (R RCX);
  Add (R R11) (R RAX);
  Adc (R R12) (R RDX);
  Adc (R R13) (I 0);
  Adc (R RBX) (I 0);
  Mov (R RAX) (M RDI 8);
  Mul (R RCX);
  Add (R R12) (R RAX);
  Adc (R R13) (R RDX);
  Adc (R R14) (R RBX);
  Mov (R RBX) (I 0);
  Adc (R RBX) (I 0);
  Mov (R RAX) (M RDI 16);
  Mul (R RCX);
  Add (R R13) (R RAX);
  Adc (R R14) (R RDX);
  Adc (R R15) (R RBX);
  Mov (R RBX) (I 0);
  Adc (R RBX) (I 0);
  Mov (R RAX) (M RDI 24);
  Mul (R RCX);
  Add (R R14) (R RAX);
  Adc (R R15) (R RDX);
  Adc (R R8) (R RBX);
  Mov (R RBX) (I 0);
  Adc (R RBX) (I 0);
  Mov (R RAX) (M RDI 32);
  Mul (R RCX);
  Add (R R15) (R RAX);
  Adc (R R8) (R RDX);
  Adc (R R9) (R RBX);
  Mov (R RAX) (M RDI 40);
  Mul (R RCX);
  Add (R R8) (R RAX);
  Adc (R R9) (R RDX) ].

(** src/arithmetic.s:501-547 *)
Definition asm_multiply_i5 : list instr := [
  Mov (R RCX) (M RSI 40);
  Mov (R RBX) (I 0);
  Mov (R RAX) (M RDI 0);
  Mul (R RCX);
  Add (R R12) (R RAX);
  Adc (R R13) (R RDX);
  Adc (R R14) (I 0);
  Adc (R RBX) (I 0);
  Mov (R RAX) (M RDI 8);
  Mul (R RCX);
  Add (R R13) (R RAX);
  Adc (R R14) (R RDX);
  Adc (R R15) (R RBX);
  Mov (R RBX) (I 0);
  Adc (R RBX) (I 0);
  Mov (R RAX) (M RDI 16);
  Mul (R RCX);
  Add (R R14) (R RAX);
  Adc (R R15) (R RDX);
  Adc (R R8) (R RBX);
  Mov (R RBX) (I 0);
  Adc (R RBX) (I 0);
  Mov (R RAX) (M RDI 24);
  Mul (R RCX);
  Add (R R15) (R RAX);
  Adc (R R8) (R RDX);
  Adc (R R9) (R RBX);
  Mov (R RBX) (I 0);
  Adc (R RBX) (I 0);
  Mov (R RAX) (M RDI 32);
  Mul (R RCX);
  Add (R R8) (R RAX);
  Adc (R R9) (R RDX);
  Adc (R RBX) (I 0);
  Mov (R RAX) (M RDI 40);
  Mul (R RCX);
  Add (R R9) (R RAX);
  Adc (R RBX) (R RDX);
  Pop RSI;
  Pop RDI;
  Pop RCX;
  Push (R RBX);
  Push (R R9) ].

(** src/arithmetic.s:548-597 *)
Definition asm_multiply_red_i0 : list instr := [
  Mov (R RAX) (R RCX);
  Mul (M RBP 0);
  Mov (R R9) (R RAX);
  Mov (R RBX) (I 0);
  Mov (R RAX) (M RBP (-8));
  Mul (R R9);
  Add (R RCX) (R RAX);
  Adc (R RBX) (R RDX);
  Mov (R RAX) (M RBP (-16));
  Mul (R R9);
  Add (R RDI) (R RAX);
  Adc (R RDX) (I 0);
  Add (R RDI) (R RBX);
  Mov (R RBX) (I 0);
  Adc (R RBX) (R RDX);
  Mov (R RAX) (M RBP (-24));
  Mul (R R9);
  Add (R RSI) (R RAX);
  Adc (R RDX) (I 0);
  Add (R RSI) (R RBX);
  Mov (R RBX) (I 0);
  Adc (R RBX) (R RDX);
  Mov (R RAX) (M RBP (-32));
  Mul (R R9);
  Add (R R10) (R RAX);
  Adc (R RDX) (I 0);
  Add (R R10) (R RBX);
  Mov (R RBX) (I 0);
  Adc (R RBX) (R RDX);
  Mov (R RAX) (M RBP (-40));
  Mul (R R9);
  Add (R R11) (R RAX);
  Adc (R RDX) (I 0);
  Add (R R11) (R RBX);
  Mov (R RBX) (I 0);
  Adc (R RBX) (R RDX);
  Mov (R RAX) (M RBP (-48));
  Mul (R R9);
  Add (R R12) (R RAX);
  Adc (R RDX) (I 0);
  Add (R R12) (R RBX);
  Adc (R R13) (R RDX);
  Adc (R RCX) (I 0) ].

(** src/arithmetic.s:598-648 *)
Definition asm_multiply_red_i1 : list instr := [
  Mov (R RAX) (R RDI);
  Mul (M RBP 0);
  Mov (R R9) (R RAX);
  Mov (R RBX) (I 0);
  Mov (R RAX) (M RBP (-8));
  Mul (R R9);
  Add (R RDI) (R RAX);
  Adc (R RBX) (R RDX);
  Mov (R RAX) (M RBP (-16));
  Mul (R R9);
  Add (R RSI) (R RAX);
  Adc (R RDX) (I 0);
  Add (R RSI) (R RBX);
  Mov (R RBX) (I 0);
  Adc (R RBX) (R RDX);
  Mov (R RAX) (M RBP (-24));
  Mul (R R9);
  Add (R R10) (R RAX);
  Adc (R RDX) (I 0);
  Add (R R10) (R RBX);
  Mov (R RBX) (I 0);
  Adc (R RBX) (R RDX);
  Mov (R RAX) (M RBP (-32));
  Mul (R R9);
  Add (R R11) (R RAX);
  Adc (R RDX) (I 0);
  Add (R R11) (R RBX);
  Mov (R RBX) (I 0);
  Adc (R RBX) (R RDX);
  Mov (R RAX) (M RBP (-40));
  Mul (R R9);
  Add (R R12) (R RAX);
  Adc (R RDX) (I 0);
  Add (R R12) (R RBX);
  Mov (R RBX) (I 0);
  Adc (R RBX) (R RDX);
  Mov (R RAX) (M RBP (-48));
  Mul (R R9);
  Add (R R13) (R RAX);
  Adc (R RCX) (R RDX);
  Add (R R13) (R RBX);
  Adc (R R14) (R RCX);
  Mov (R RCX) (I 0);
  Adc (R RCX) (I 0) ].

(** src/arithmetic.s:649-699 *)
Definition asm_multiply_red_i2 : list instr := [
  Mov (R RAX) (R RSI);
  Mul (M RBP 0);
  Mov (R R9) (R RAX);
  Mov (R RBX) (I 0);
  Mov (R RAX) (M RBP (-8));
  Mul (R R9);
  Add (R RSI) (R RAX);
  Adc (R RBX) (R RDX);
  Mov (R RAX) (M RBP (-16));
  Mul (R R9);
  Add (R R10) (R RAX);
  Adc (R RDX) (I 0);
  Add (R R10) (R RBX);
  Mov (R RBX) (I 0);
  Adc (R RBX) (R RDX);
  Mov (R RAX) (M RBP (-24));
  Mul (R R9);
  Add (R R11) (R RAX);
  Adc (R RDX) (I 0);
  Add (R R11) (R RBX);
  Mov (R RBX) (I 0);
  Adc (R RBX) (R RDX);
  Mov (R RAX) (M RBP (-32));
  Mul (R R9);
  Add (R R12) (R RAX);
  Adc (R RDX) (I 0);
  Add (R R12) (R RBX);
  Mov (R RBX) (I 0);
  Adc (R RBX) (R RDX);
  Mov (R RAX) (M RBP (-40));
  Mul (R R9);
  Add (R R13) (R RAX);
  Adc (R RDX) (I 0);
  Add (R R13) (R RBX);
  Mov (R RBX) (I 0);
  Adc (R RBX) (R RDX);
  Mov (R RAX) (M RBP (-48));
  Mul (R R9);
  Add (R R14) (R RAX);
  Adc (R RCX) (R RDX);
  Add (R R14) (R RBX);
  Adc (R R15) (R RCX);
  Mov (R RCX) (I 0);
  Adc (R RCX) (I 0) ].

(** src/arithmetic.s:700-750 *)
Definition asm_multiply_red_i3 : list instr := [
  Mov (R RAX) (R R10);
  Mul (M RBP 0);
  Mov (R R9) (R RAX);
  Mov (R RBX) (I 0);
  Mov (R RAX) (M RBP (-8));
  Mul (R R9);
  Add (R R10) (R RAX);
  Adc (R RBX) (R RDX);
  Mov (R RAX) (M RBP (-16));
  Mul (R R9);
  Add (R R11) (R RAX);
  Adc (R RDX) (I 0);
  Add (R R11) (R RBX);
  Mov (R RBX) (I 0);
  Adc (R RBX) (R RDX);
  Mov (R RAX) (M RBP (-24));
  Mul (R R9);
  Add (R R12) (R RAX);
  Adc (R RDX) (I 0);
  Add (R R12) (R RBX);
  Mov (R RBX) (I 0);
  Adc (R RBX) (R RDX);
  Mov (R RAX) (M RBP (-32));
  Mul (R R9);
  Add (R R13) (R RAX);
  Adc (R RDX) (I 0);
  Add (R R13) (R RBX);
  Mov (R RBX) (I 0);
  Adc (R RBX) (R RDX);
  Mov (R RAX) (M RBP (-40));
  Mul (R R9);
  Add (R R14) (R RAX);
  Adc (R RDX) (I 0);
  Add (R R14) (R RBX);
  Mov (R RBX) (I 0);
  Adc (R RBX) (R RDX);
  Mov (R RAX) (M RBP (-48));
  Mul (R R9);
  Add (R R15) (R RAX);
  Adc (R RCX) (R RDX);
  Add (R R15) (R RBX);
  Adc (R R8) (R RCX);
  Mov (R RCX) (I 0);
  Adc (R RCX) (I 0) ].

(** src/arithmetic.s:751-802 *)
Definition asm_multiply_red_i4 : list instr := [
  Mov (R RAX) (R R11);
  Mul (M RBP 0);
  Mov (R R9) (R RAX);
  Mov (R RBX) (I 0);
  Mov (R RAX) (M RBP (-8));
  Mul (R R9);
  Add (R R11) (R RAX);
  Adc (R RBX) (R RDX);
  Mov (R RAX) (M RBP (-16));
  Mul (R R9);
  Add (R R12) (R RAX);
  Adc (R RDX) (I 0);
  Add (R R12) (R RBX);
  Mov (R RBX) (I 0);
  Adc (R RBX) (R RDX);
  Mov (R RAX) (M RBP (-24));
  Mul (R R9);
  Add (R R13) (R RAX);
  Adc (R RDX) (I 0);
  Add (R R13) (R RBX);
  Mov (R RBX) (I 0);
  Adc (R RBX) (R RDX);
  Mov (R RAX) (M RBP (-32));
  Mul (R R9);
  Add (R R14) (R RAX);
  Adc (R RDX) (I 0);
  Add (R R14) (R RBX);
  Mov (R RBX) (I 0);
  Adc (R RBX) (R RDX);
  Mov (R RAX) (M RBP (-40));
  Mul (R R9);
  Add (R R15) (R RAX);
  Adc (R RDX) (I 0);
  Add (R R15) (R RBX);
  Mov (R RBX) (I 0);
  Adc (R RBX) (R RDX);
  Mov (R RAX) (M RBP (-48));
  Mul (R R9);
  Add (R R8) (R RAX);
  Adc (R RCX) (R RDX);
  Add (R R8) (R RBX);
  Pop RDI;
  Adc (R RDI) (R RCX);
  Mov (R RCX) (I 0);
  Adc (R RCX) (I 0) ].

(** src/arithmetic.s:803-853 *)
Definition asm_multiply_red_i5 : list instr := [
  Mov (R RAX) (R R12);
  Mul (M RBP 0);
  Mov (R R9) (R RAX);
  Mov (R RBX) (I 0);
  Mov (R RAX) (M RBP (-8));
  Mul (R R9);
  Add (R R12) (R RAX);
  Adc (R RBX) (R RDX);
  Mov (R RAX) (M RBP (-16));
  Mul (R R9);
  Add (R R13) (R RAX);
  Adc (R RDX) (I 0);
  Add (R R13) (R RBX);
  Mov (R RBX) (I 0);
  Adc (R RBX) (R RDX);
  Mov (R RAX) (M RBP (-24));
  Mul (R R9);
  Add (R R14) (R RAX);
  Adc (R RDX) (I 0);
  Add (R R14) (R RBX);
  Mov (R RBX) (I 0);
  Adc (R RBX) (R RDX);
  Mov (R RAX) (M RBP (-32));
  Mul (R R9);
  Add (R R15) (R RAX);
  Adc (R RDX) (I 0);
  Add (R R15) (R RBX);
  Mov (R RBX) (I 0);
  Adc (R RBX) (R RDX);
  Mov (R RAX) (M RBP (-40));
  Mul (R R9);
  Add (R R8) (R RAX);
  Adc (R RDX) (I 0);
  Add (R R8) (R RBX);
  Mov (R RBX) (I 0);
  Adc (R RBX) (R RDX);
  Mov (R RAX) (M RBP (-48));
  Mul (R R9);
  Add (R RDI) (R RAX);
  Adc (R RCX) (R RDX);
  Add (R RDI) (R RBX);
  Pop RSI;
  Adc (R RCX) (R RSI) ].

(** src/arithmetic.s:854-867 *)
Definition asm_multiply_modular_reduction : list instr := [
  Mov (R R10) (R R13);
  Sub (R R10) (M RBP (-8));
  Mov (R R11) (R R14);
  Sbb (R R11) (M RBP (-16));
  Mov (R R12) (R R15);
  Sbb (R R12) (M RBP (-24));
  Mov (R RAX) (R R8);
  Sbb (R RAX) (M RBP (-32));
  Mov (R RBX) (R RDI);
  Sbb (R RBX) (M RBP (-40));
  Mov (R R9) (R RCX);
  Sbb (R R9) (M RBP (-48)) ].

(** src/arithmetic.s:868-897 *)
Definition asm_multiply_out : list instr := [
  Pop RSI;
  Cmovae (R R13) (R R10);
  Mov (M RSI 0) (R R13);
  Cmovae (R R14) (R R11);
  Mov (M RSI 8) (R R14);
  Cmovae (R R15) (R R12);
  Mov (M RSI 16) (R R15);
  Cmovae (R R8) (R RAX);
  Mov (M RSI 24) (R R8);
  Cmovae (R RDI) (R RBX);
  Mov (M RSI 32) (R RDI);
  Cmovae (R RCX) (R R9);
  Mov (M RSI 40) (R RCX);
  Pop RAX;
  Pop RAX;
  Pop RAX;
  Pop RAX;
  Pop RAX;
  Pop RAX;
  Pop RAX;
  Pop RBX;
  Pop R12;
  Pop R13;
  Pop R14;
  Pop R15;
  Pop RBP ].

(** src/arithmetic.s:279-897 *)
Definition asm_multiply : list instr :=
  asm_multiply_prologue ++
  asm_multiply_i0 ++
  asm_multiply_i1 ++
  asm_multiply_i2 ++
  asm_multiply_i3 ++
  asm_multiply_i4 ++
  asm_multiply_i5 ++
  asm_multiply_red_i0 ++
  asm_multiply_red_i1 ++
  asm_multiply_red_i2 ++
  asm_multiply_red_i3 ++
  asm_multiply_red_i4 ++
  asm_multiply_red_i5 ++
  asm_multiply_modular_reduction ++
  asm_multiply_out.

(** src/arithmetic.s:903-931 *)
Definition asm_mul_ex_prologue : list instr := [
  Push (R RBP);
  Push (R R15);
  Push (R R14);
  Push (R R13);
  Push (R R12);
  Push (R RBX);
  Mov (R RAX) (I 9940570264628428797);
  Push (R RAX);
  Mov (R RBP) (R RSP);
  Mov (R RAX) (I 13402431016077863595);
  Push (R RAX);
  Mov (R RAX) (I 2210141511517208575);
  Push (R RAX);
  Mov (R RAX) (I 7435674573564081700);
  Push (R RAX);
  Mov (R RAX) (I 7239337960414712511);
  Push (R RAX);
  Mov (R RAX) (I 5412103778470702295);
  Push (R RAX);
  Mov (R RAX) (I 1873798617647539866);
  Push (R RAX);
  Push (R RDI);
  Mov (R RDI) (R RDX);
  Xor (R RAX) (R RAX) ].

(** src/arithmetic.s:932-946 *)
Definition asm_mul_ex_i0 : list instr := [
  Mov (R RDX) (M RSI 0);
  Mulx RCX RAX (M RDI 0);
  Push (R RAX);
  Mulx R8 RAX (M RDI 8);
  Adcx (R RCX) (R RAX);
  Mulx R9 RAX (M RDI 16);
  Adcx (R R8) (R RAX);
  Mulx R10 RAX (M RDI 24);
  Adcx (R R9) (R RAX);
  Mulx R11 RAX (M RDI 32);
  Adcx (R R10) (R RAX);
  Mulx R12 RAX (M RDI 40);
  Adcx (R R11) (R RAX);
  Adc (R R12) (I 0) ].

(** src/arithmetic.s:947-969 *)
Definition asm_mul_ex_i1 : list instr := [
  Mov (R RDX) (M RSI 8);
  Xor (R R13) (R R13);
  Mulx RBX RAX (M RDI 0);
  Adox (R RCX) (R RAX);
  Adcx (R R8) (R RBX);
  Push (R RCX);
  Mulx RBX RAX (M RDI 8);
  Adox (R R8) (R RAX);
  Adcx (R R9) (R RBX);
  Mulx RBX RAX (M RDI 16);
  Adox (R R9) (R RAX);
  Adcx (R R10) (R RBX);
  Mulx RBX RAX (M RDI 24);
  Adox (R R10) (R RAX);
  Adcx (R R11) (R RBX);
  Mulx RBX RAX (M RDI 32);
  Adox (R R11) (R RAX);
  Adcx (R R12) (R RBX);
  Mulx RBX RAX (M RDI 40);
  Adox (R R12) (R RAX);
  Adox (R R13) (R R13);
  Adcx (R R13) (R RBX) ].

(** src/arithmetic.s:970-991 *)
Definition asm_mul_ex_i2 : list instr := [
  Mov (R RDX) (M RSI 16);
  Xor (R R14) (R R14);
  Mulx RBX RAX (M RDI 0);
  Adox (R R8) (R RAX);
  Adcx (R R9) (R RBX);
  Mulx RBX RAX (M RDI 8);
  Adox (R R9) (R RAX);
  Adcx (R R10) (R RBX);
  Mulx RBX RAX (M RDI 16);
  Adox (R R10) (R RAX);
  Adcx (R R11) (R RBX);
  Mulx RBX RAX (M RDI 24);
  Adox (R R11) (R RAX);
  Adcx (R R12) (R RBX);
  Mulx RBX RAX (M RDI 32);
  Adox (R R12) (R RAX);
  Adcx (R R13) (R RBX);
  Mulx RBX RAX (M RDI 40);
  Adox (R R13) (R RAX);
  Adox (R R14) (R R14);
  Adcx (R R14) (R RBX) ].

(** src/arithmetic.s:992-1013 *)
Definition asm_mul_ex_i3 : list instr := [
  Mov (R RDX) (M RSI 24);
  Xor (R R15) (R R15);
  Mulx RBX RAX (M RDI 0);
  Adox (R R9) (R RAX);
  Adcx (R R10) (R RBX);
  Mulx RBX RAX (M RDI 8);
  Adox (R R10) (R RAX);
  Adcx (R R11) (R RBX);
  Mulx RBX RAX (M RDI 16);
  Adox (R R11) (R RAX);
  Adcx (R R12) (R RBX);
  Mulx RBX RAX (M RDI 24);
  Adox (R R12) (R RAX);
  Adcx (R R13) (R RBX);
  Mulx RBX RAX (M RDI 32);
  Adox (R R13) (R RAX);
  Adcx (R R14) (R RBX);
  Mulx RBX RAX (M RDI 40);
  Adox (R R14) (R RAX);
  Adox (R R15) (R R15);
  Adcx (R R15) (R RBX) ].

(** src/arithmetic.s:1014-1035 *)
Definition asm_mul_ex_i4 : list instr := [
  Mov (R RDX) (M RSI 32);
  Xor (R RCX) (R RCX);
  Mulx RBX RAX (M RDI 0);
  Adox (R R10) (R RAX);
  Adcx (R R11) (R RBX);
  Mulx RBX RAX (M RDI 8);
  Adox (R R11) (R RAX);
  Adcx (R R12) (R RBX);
  Mulx RBX RAX (M RDI 16);
  Adox (R R12) (R RAX);
  Adcx (R R13) (R RBX);
  Mulx RBX RAX (M RDI 24);
  Adox (R R13) (R RAX);
  Adcx (R R14) (R RBX);
  Mulx RBX RAX (M RDI 32);
  Adox (R R14) (R RAX);
  Adcx (R R15) (R RBX);
  Mulx RBX RAX (M RDI 40);
  Adox (R R15) (R RAX);
  Adox (R RCX) (R RCX);
  Adcx (R RCX) (R RBX) ].

(** src/arithmetic.s:1036-1064 *)
Definition asm_mul_ex_i5 : list instr := [
  Mov (R RDX) (M RSI 40);
  Xor (R RSI) (R RSI);
  Mulx RBX RAX (M RDI 0);
  Adox (R R11) (R RAX);
  Adcx (R R12) (R RBX);
  Mulx RBX RAX (M RDI 8);
  Adox (R R12) (R RAX);
  Adcx (R R13) (R RBX);
  Mulx RBX RAX (M RDI 16);
  Adox (R R13) (R RAX);
  Adcx (R R14) (R RBX);
  Mulx RBX RAX (M RDI 24);
  Adox (R R14) (R RAX);
  Adcx (R R15) (R RBX);
  Mulx RBX RAX (M RDI 32);
  Adox (R R15) (R RAX);
  Adcx (R RCX) (R RBX);
  Mulx RBX RAX (M RDI 40);
  Adox (R RCX) (R RAX);
  Adox (R RSI) (R RBX);
  Adc (R RSI) (I 0);
  Pop RDI;
  Pop RBX;
  Push (R RSI);
  Xor (R RAX) (R RAX) ].

(** src/arithmetic.s:1065-1097 *)
Definition asm_mul_ex_red_i0 : list instr := [
  Mov (R RDX) (R RBX);
  Mulx RSI RDX (M RBP 0);
  Mulx RSI RAX (M RBP (-8));
  Adox (R RBX) (R RAX);
  Adcx (R RDI) (R RSI);
  Mulx RSI RAX (M RBP (-16));
  Adox (R RDI) (R RAX);
  Adcx (R R8) (R RSI);
  Mulx RSI RAX (M RBP (-24));
  Adox (R R8) (R RAX);
  Adcx (R R9) (R RSI);
  Mulx RSI RAX (M RBP (-32));
  Adox (R R9) (R RAX);
  Adcx (R R10) (R RSI);
  Mulx RSI RAX (M RBP (-40));
  Adox (R R10) (R RAX);
  Adcx (R R11) (R RSI);
  Mulx RSI RAX (M RBP (-48));
  Adox (R R11) (R RAX);
  Adcx (R R12) (R RSI);
  Adox (R R12) (R RBX);
  Adcx (R RBX) (R RBX);
  Mov (R RAX) (I 0);
  Adox (R RBX) (R RAX);
  Xor (R RAX) (R RAX) ].

(** src/arithmetic.s:1098-1130 *)
Definition asm_mul_ex_red_i1 : list instr := [
  Mov (R RDX) (R RDI);
  Mulx RSI RDX (M RBP 0);
  Mulx RSI RAX (M RBP (-8));
  Adox (R RDI) (R RAX);
  Adcx (R R8) (R RSI);
  Mulx RSI RAX (M RBP (-16));
  Adox (R R8) (R RAX);
  Adcx (R R9) (R RSI);
  Mulx RSI RAX (M RBP (-24));
  Adox (R R9) (R RAX);
  Adcx (R R10) (R RSI);
  Mulx RSI RAX (M RBP (-32));
  Adox (R R10) (R RAX);
  Adcx (R R11) (R RSI);
  Mulx RSI RAX (M RBP (-40));
  Adox (R R11) (R RAX);
  Adcx (R R12) (R RSI);
  Mulx RSI RAX (M RBP (-48));
  Adox (R R12) (R RAX);
  Adcx (R R13) (R RSI);
  Adox (R R13) (R RBX);
  Adcx (R RDI) (R RDI);
  Mov (R RAX) (I 0);
  Adox (R RDI) (R RAX);
  Xor (R RAX) (R RAX) ].

(** src/arithmetic.s:1131-1163 *)
Definition asm_mul_ex_red_i2 : list instr := [
  Mov (R RDX) (R R8);
  Mulx RSI RDX (M RBP 0);
  Mulx RSI RAX (M RBP (-8));
  Adox (R R8) (R RAX);
  Adcx (R R9) (R RSI);
  Mulx RSI RAX (M RBP (-16));
  Adox (R R9) (R RAX);
  Adcx (R R10) (R RSI);
  Mulx RSI RAX (M RBP (-24));
  Adox (R R10) (R RAX);
  Adcx (R R11) (R RSI);
  Mulx RSI RAX (M RBP (-32));
  Adox (R R11) (R RAX);
  Adcx (R R12) (R RSI);
  Mulx RSI RAX (M RBP (-40));
  Adox (R R12) (R RAX);
  Adcx (R R13) (R RSI);
  Mulx RSI RAX (M RBP (-48));
  Adox (R R13) (R RAX);
  Adcx (R R14) (R RSI);
  Adox (R R14) (R RDI);
  Adcx (R R8) (R R8);
  Mov (R RAX) (I 0);
  Adox (R R8) (R RAX);
  Xor (R RAX) (R RAX) ].

(** src/arithmetic.s:1164-1196 *)
Definition asm_mul_ex_red_i3 : list instr := [
  Mov (R RDX) (R R9);
  Mulx RSI RDX (M RBP 0);
  Mulx RSI RAX (M RBP (-8));
  Adox (R R9) (R RAX);
  Adcx (R R10) (R RSI);
  Mulx RSI RAX (M RBP (-16));
  Adox (R R10) (R RAX);
  Adcx (R R11) (R RSI);
  Mulx RSI RAX (M RBP (-24));
  Adox (R R11) (R RAX);
  Adcx (R R12) (R RSI);
  Mulx RSI RAX (M RBP (-32));
  Adox (R R12) (R RAX);
  Adcx (R R13) (R RSI);
  Mulx RSI RAX (M RBP (-40));
  Adox (R R13) (R RAX);
  Adcx (R R14) (R RSI);
  Mulx RSI RAX (M RBP (-48));
  Adox (R R14) (R RAX);
  Adcx (R R15) (R RSI);
  Adox (R R15) (R R8);
  Adcx (R R9) (R R9);
  Mov (R RAX) (I 0);
  Adox (R R9) (R RAX);
  Xor (R RAX) (R RAX) ].

(** src/arithmetic.s:1197-1229 *)
Definition asm_mul_ex_red_i4 : list instr := [
  Mov (R RDX) (R R10);
  Mulx RSI RDX (M RBP 0);
  Mulx RSI RAX (M RBP (-8));
  Adox (R R10) (R RAX);
  Adcx (R R11) (R RSI);
  Mulx RSI RAX (M RBP (-16));
  Adox (R R11) (R RAX);
  Adcx (R R12) (R RSI);
  Mulx RSI RAX (M RBP (-24));
  Adox (R R12) (R RAX);
  Adcx (R R13) (R RSI);
  Mulx RSI RAX (M RBP (-32));
  Adox (R R13) (R RAX);
  Adcx (R R14) (R RSI);
  Mulx RSI RAX (M RBP (-40));
  Adox (R R14) (R RAX);
  Adcx (R R15) (R RSI);
  Mulx RSI RAX (M RBP (-48));
  Adox (R R15) (R RAX);
  Adcx (R RCX) (R RSI);
  Adox (R RCX) (R R9);
  Adcx (R R10) (R R10);
  Mov (R RAX) (I 0);
  Adox (R R10) (R RAX);
  Xor (R RAX) (R RAX) ].

(** src/arithmetic.s:1230-1259 *)
Definition asm_mul_ex_red_i5 : list instr := [
  Mov (R RDX) (R R11);
  Mulx RSI RDX (M RBP 0);
  Mulx RSI RAX (M RBP (-8));
  Adox (R R11) (R RAX);
  Adcx (R R12) (R RSI);
  Mulx RSI RAX (M RBP (-16));
  Adox (R R12) (R RAX);
  Adcx (R R13) (R RSI);
  Mulx RSI RAX (M RBP (-24));
  Adox (R R13) (R RAX);
  Adcx (R R14) (R RSI);
  Mulx RSI RAX (M RBP (-32));
  Adox (R R14) (R RAX);
  Adcx (R R15) (R RSI);
  Mulx RSI RAX (M RBP (-40));
  Adox (R R15) (R RAX);
  Adcx (R RCX) (R RSI);
  Mulx RSI RAX (M RBP (-48));
  Adox (R RCX) (R RAX);
  Pop RBX;
  Adcx (R RBX) (R RSI);
  Adox (R RBX) (R R10) ].

(** src/arithmetic.s:1260-1278 *)
Definition asm_mul_ex_modular_reduction : list instr := [
  Mov (R RAX) (R R12);
  Sub (R RAX) (M RBP (-8));
  Mov (R RSI) (R R13);
  Sbb (R RSI) (M RBP (-16));
  Mov (R RDI) (R R14);
  Sbb (R RDI) (M RBP (-24));
  Mov (R R8) (R R15);
  Sbb (R R8) (M RBP (-32));
  Mov (R R9) (R RCX);
  Sbb (R R9) (M RBP (-40));
  Mov (R R10) (R RBX);
  Sbb (R R10) (M RBP (-48)) ].

(** src/arithmetic.s:1279-1308 *)
Definition asm_mul_ex_out : list instr := [
  Pop R11;
  Cmovae (R R12) (R RAX);
  Mov (M R11 0) (R R12);
  Cmovae (R R13) (R RSI);
  Mov (M R11 8) (R R13);
  Cmovae (R R14) (R RDI);
  Mov (M R11 16) (R R14);
  Cmovae (R R15) (R R8);
  Mov (M R11 24) (R R15);
  Cmovae (R RCX) (R R9);
  Mov (M R11 32) (R RCX);
  Cmovae (R RBX) (R R10);
  Mov (M R11 40) (R RBX);
  Pop RAX;
  Pop RAX;
  Pop RAX;
  Pop RAX;
  Pop RAX;
  Pop RAX;
  Pop RAX;
  Pop RBX;
  Pop R12;
  Pop R13;
  Pop R14;
  Pop R15;
  Pop RBP ].

(** src/arithmetic.s:903-1308 *)
Definition asm_mul_ex : list instr :=
  asm_mul_ex_prologue ++
  asm_mul_ex_i0 ++
  asm_mul_ex_i1 ++
  asm_mul_ex_i2 ++
  asm_mul_ex_i3 ++
  asm_mul_ex_i4 ++
  asm_mul_ex_i5 ++
  asm_mul_ex_red_i0 ++
  asm_mul_ex_red_i1 ++
  asm_mul_ex_red_i2 ++
  asm_mul_ex_red_i3 ++
  asm_mul_ex_red_i4 ++
  asm_mul_ex_red_i5 ++
  asm_mul_ex_modular_reduction ++
  asm_mul_ex_out.


(** src/arithmetic.cpp:168-183 (resolve_blsmul) and 187-194: which multiplier _multiply is bound to, as a
    function of the two facts it looks at: environment variable BLS_DISABLE_BMI2 present, CPU has BMI2 and ADX. *)
Definition resolve_blsmul (disabled has_bmi2_adx : bool) : list instr :=
  if disabled then asm_multiply else if has_bmi2_adx then asm_mul_ex else asm_multiply.
