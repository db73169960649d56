(** * AsmX86: the amd64 instructions used by /repo/sm2/p256_asm_amd64.s

    A machine with the general registers except SP, 16 vector registers of two 64-bit words, the carry and zero
    flags, memory objects made of 64-bit words, the stack frame and the arguments of the running function.
    Anything not set yet, and flags that an instruction leaves undefined or that are not modelled, are
    undefined; an instruction that uses an undefined value or leaves an object, and a vector
    operation on an unaligned operand, stop the machine ([None]).
    Not modelled: the return address, the frame pointer saved by the assembler, instruction timing. *)
From Coq Require Import ZArith List Bool.
Import ListNotations.
Open Scope Z_scope.

Definition W64 : Z := 18446744073709551616.

(** a 64-bit value: a number, a pointer (object, byte offset), or two 32-bit halves not both known *)
Inductive val := I (z : Z) | Ptr (r : nat) (o : Z) | Half (lo hi : option Z).
Definition U : val := Half None None.
(** memory: the word at a byte offset of an object, for the offsets 0, 8, ... inside it *)
Definition heap := nat -> Z -> option Z.
Definition store (h : heap) (r : nat) (o v : Z) : heap :=
  fun r' o' => if (Nat.eqb r' r && (o' =? o)) then Some v else h r' o'.
Record state := St {
  rg : list val;
  xm : list (option (Z * Z));
  cf : option Z;
  zf : option bool;
  hp : heap;
  al : nat -> Z; (* address of an object modulo 16 *)
  fr : list val;
  ar : list val
}.

(** general registers *)
Definition AX := 0%nat. Definition BX := 1%nat. Definition CX := 2%nat. Definition DX := 3%nat.
Definition SI := 4%nat. Definition DI := 5%nat. Definition BP := 6%nat.
Definition R8 := 7%nat. Definition R9 := 8%nat. Definition R10 := 9%nat. Definition R11 := 10%nat.
Definition R12 := 11%nat. Definition R13 := 12%nat. Definition R14 := 13%nat. Definition R15 := 14%nat.

(** source of an arithmetic instruction: register, or constant (immediate, modulo 2^64, or DATA word) *)
Inductive src := R (r : nat) | K (z : Z).
(** Instructions, in the operand order of the Go assembler (source, destination). *)
Inductive instr :=
| MOV (s : src) (d : nat)               (* MOVQ reg/const, reg *)
| LD (b : nat) (off : Z) (d : nat)      (* MOVQ off(b), reg *)
| STO (s : nat) (b : nat) (off : Z)     (* MOVQ reg, off(b) *)
| LDA (off : Z) (d : nat)               (* MOVQ name+off(FP), reg *)
| LDF (off : Z) (d : nat)               (* MOVQ off(SP), reg *)
| STF (s : src) (off : Z)               (* MOVQ reg/const, off(SP) *)
| LDF32 (off : Z) (d : nat)             (* MOVL off(SP), reg: upper half 0 *)
| STF32 (s : nat) (off : Z)             (* MOVL reg, off(SP) *)
| ADD (s : src) (d : nat) | ADC (s : src) (d : nat) | SUB (s : src) (d : nat) | SBB (s : src) (d : nat)
| MUL (s : src)                         (* MULQ: DX:AX = AX * s *)
| XOR (s : src) (d : nat) | AND (s : src) (d : nat) | TEST (s : src) (d : nat)
| SHL (k : Z) (d : nat) | SHR (k : Z) (d : nat)
| SHRD (k : Z) (d : nat) (s : nat)      (* SHRQ $k, d:s: d shifted right, bits of s coming in *)
| CMOVCS (s d : nat) | CMOVEQ (s d : nat) | CMOVNE (s d : nat)
| BSWAP (d : nat) | DEC (d : nat)
| XLD (b : nat) (off : Z) (x : nat)     (* MOVOU off(b), X *)
| XST (x : nat) (b : nat) (off : Z)     (* MOVOU X, off(b) *)
| XLDF (off : Z) (x : nat)              (* MOVOU off(SP), X *)
| XSTF (x : nat) (off : Z)              (* MOVOU X, off(SP) *)
| XLDK (lo hi : Z) (x : nat)            (* MOVOU data(SB), X *)
| XMOV (x y : nat)                      (* MOVOU X, Y *)
| XLDA (off : Z) (x : nat)              (* MOVQ name+off(FP), X: upper word 0 *)
| XMOVL (r : nat) (x : nat)             (* MOVL reg, X: low 32 bits, rest 0 *)
| PXOR (x y : nat) | PAND (x y : nat)
| PANDN (x y : nat)                     (* Y = X and not Y *)
| PANDNM (b : nat) (off : Z) (y : nat)  (* the same with X in memory, at an address divisible by 16 *)
| PCMPEQL (x y : nat) | PADDL (x y : nat) | PSUBL (x y : nat)
| PSHUFD0 (x y : nat).                  (* PSHUFD $0, X, Y: the lowest 32 bits four times *)
(** Programs: a loop is the body between a label and the JNE back to it *)
Inductive item := Do (i : instr) | Loop (body : list instr) | Call (code : list instr).

Section Exec.
Definition upd {A} (l : list A) (n : nat) (a : A) : list A := firstn n l ++ a :: skipn (S n) l.
Definition rd (st : state) (r : nat) : val := nth r (rg st) U.
Definition rdi (st : state) (r : nat) : option Z := match rd st r with I z => Some z | _ => None end.
Definition rdx (st : state) (x : nat) : option (Z * Z) := nth x (xm st) None.
Definition sv (st : state) (s : src) : option Z := match s with R r => rdi st r | K z => Some z end.
Definition set_r (st : state) (r : nat) (v : val) : state := St (upd (rg st) r v) (xm st) (cf st) (zf st) (hp st) (al st) (fr st) (ar st).
Definition set_x (st : state) (x : nat) (v : Z * Z) : state := St (rg st) (upd (xm st) x (Some v)) (cf st) (zf st) (hp st) (al st) (fr st) (ar st).
Definition set_f (st : state) (c : option Z) (z : option bool) : state := St (rg st) (xm st) c z (hp st) (al st) (fr st) (ar st).
Definition set_h (st : state) (h : heap) : state := St (rg st) (xm st) (cf st) (zf st) h (al st) (fr st) (ar st).
Definition set_fr (st : state) (f : list val) : state := St (rg st) (xm st) (cf st) (zf st) (hp st) (al st) f (ar st).
(** stack words *)
Definition fidx (off : Z) : nat := Z.to_nat (off / 8).
Definition rdf (st : state) (off : Z) : val := nth (fidx off) (fr st) U.
Definition wrf (st : state) (off : Z) (v : val) : state := set_fr st (upd (fr st) (fidx off) v).
(** 32-bit halves *)
Definition halves (v : val) : option Z * option Z :=
  match v with I z => (Some (z mod 2 ^ 32), Some (z / 2 ^ 32)) | Half lo hi => (lo, hi) | Ptr _ _ => (None, None) end.
Definition join (h : option Z * option Z) : val :=
  match h with (Some lo, Some hi) => I (lo + 2 ^ 32 * hi) | (lo, hi) => Half lo hi end.
(** vector operations on 32-bit lanes *)
Definition lanes (f : Z -> Z -> Z) (a b : Z) : Z :=
  f (a mod 2 ^ 32) (b mod 2 ^ 32) mod 2 ^ 32 + 2 ^ 32 * (f (a / 2 ^ 32) (b / 2 ^ 32) mod 2 ^ 32).
Definition lanes2 (f : Z -> Z -> Z) (a b : Z * Z) : Z * Z := (lanes f (fst a) (fst b), lanes f (snd a) (snd b)).
Definition words2 (f : Z -> Z -> Z) (a b : Z * Z) : Z * Z := (f (fst a) (fst b), f (snd a) (snd b)).
Definition eq_lane (a b : Z) : Z := if a =? b then 2 ^ 32 - 1 else 0.
Definition andn (a b : Z) : Z := Z.ldiff a b.
(** the bytes of a word reversed *)
Definition bswap (a : Z) : Z :=
  let byte i := (a / 2 ^ (8 * i)) mod 256 in
  byte 7 + 2 ^ 8 * byte 6 + 2 ^ 16 * byte 5 + 2 ^ 24 * byte 4 + 2 ^ 32 * byte 3 + 2 ^ 40 * byte 2 + 2 ^ 48 * byte 1 + 2 ^ 56 * byte 0.

Definition arith (st : state) (s : src) (d : nat) (f : Z -> Z -> option (Z * Z)) : option state :=
  match sv st s, rdi st d with
  | Some a, Some b => match f a b with Some (r, c) => Some (set_f (set_r st d (I r)) (Some c) (Some (r =? 0))) | None => None end
  | _, _ => None
  end.
Definition cmov (st : state) (cond : option bool) (s d : nat) : option state :=
  match cond, rdi st s, rdi st d with Some c, Some a, Some b => Some (set_r st d (I (if c then a else b))) | _, _, _ => None end.
Definition vec (st : state) (x y : nat) (f : Z * Z -> Z * Z -> Z * Z) : option state :=
  match rdx st x, rdx st y with Some a, Some b => Some (set_x st y (f a b)) | _, _ => None end.

Definition step (i : instr) (st : state) : option state :=
  match i with
  | MOV (R r) d => Some (set_r st d (rd st r))
  | MOV (K z) d => Some (set_r st d (I z))
  | LD b off d => match rd st b with
                  | Ptr r o => match hp st r (o + off) with Some w => Some (set_r st d (I w)) | None => None end
                  | _ => None end
  | STO s b off => match rd st b, rdi st s with
                   | Ptr r o, Some v => match hp st r (o + off) with Some _ => Some (set_h st (store (hp st) r (o + off) v)) | None => None end
                   | _, _ => None end
  | LDA off d => match nth_error (ar st) (fidx off) with Some v => Some (set_r st d v) | None => None end
  | LDF off d => Some (set_r st d (rdf st off))
  | STF (R r) off => Some (wrf st off (rd st r))
  | STF (K z) off => Some (wrf st off (I z))
  | LDF32 off d => let (lo, hi) := halves (rdf st off) in
                   match (if off mod 8 =? 0 then lo else hi) with Some z => Some (set_r st d (I z)) | None => None end
  | STF32 s off => match rdi st s with
                   | Some v => let (lo, hi) := halves (rdf st off) in let w := Some (v mod 2 ^ 32) in
                               Some (wrf st off (join (if off mod 8 =? 0 then (w, hi) else (lo, w))))
                   | None => None end
  | ADD s d => match rd st d, s with
               | Ptr r o, K z => Some (set_f (set_r st d (Ptr r (o + z))) None None)
               | _, _ => arith st s d (fun a b => Some ((a + b) mod W64, (a + b) / W64))
               end
  | ADC s d => arith st s d (fun a b => match cf st with Some c => Some ((a + b + c) mod W64, (a + b + c) / W64) | None => None end)
  | SUB s d => arith st s d (fun a b => Some ((b - a) mod W64, - ((b - a) / W64)))
  | SBB s d => arith st s d (fun a b => match cf st with Some c => Some ((b - a - c) mod W64, - ((b - a - c) / W64)) | None => None end)
  | MUL s => match sv st s, rdi st AX with
             | Some a, Some b => Some (set_f (set_r (set_r st AX (I ((a * b) mod W64))) DX (I ((a * b) / W64))) None None)
             | _, _ => None end
  | XOR s d => match s with
               | R r => if Nat.eqb r d then Some (set_f (set_r st d (I 0)) (Some 0) (Some true))
                        else arith st s d (fun a b => Some (Z.lxor a b, 0))
               | K _ => arith st s d (fun a b => Some (Z.lxor a b, 0)) end
  | AND s d => arith st s d (fun a b => Some (Z.land a b, 0))
  | TEST s d => match sv st s, rdi st d with Some a, Some b => Some (set_f st (Some 0) (Some (Z.land a b =? 0))) | _, _ => None end
  | SHL k d => match rdi st d with Some a => Some (set_f (set_r st d (I ((a * 2 ^ k) mod W64))) None None) | None => None end
  | SHR k d => match rdi st d with Some a => Some (set_f (set_r st d (I (a / 2 ^ k))) None None) | None => None end
  | SHRD k d s => match rdi st d, rdi st s with
                  | Some a, Some b => Some (set_f (set_r st d (I (((a + W64 * b) / 2 ^ k) mod W64))) None None) | _, _ => None end
  | CMOVCS s d => cmov st (match cf st with Some c => Some (negb (c =? 0)) | None => None end) s d
  | CMOVEQ s d => cmov st (zf st) s d
  | CMOVNE s d => cmov st (match zf st with Some z => Some (negb z) | None => None end) s d
  | BSWAP d => match rdi st d with Some a => Some (set_r st d (I (bswap a))) | None => None end
  | DEC d => match rdi st d with Some a => let r := (a - 1) mod W64 in Some (set_f (set_r st d (I r)) (cf st) (Some (r =? 0))) | None => None end
  | XLD b off x => match rd st b with
                   | Ptr r o => match hp st r (o + off), hp st r (o + off + 8) with
                                | Some lo, Some hi => Some (set_x st x (lo, hi)) | _, _ => None end
                   | _ => None end
  | XST x b off => match rd st b, rdx st x with
                   | Ptr r o, Some (lo, hi) => match hp st r (o + off), hp st r (o + off + 8) with
                                | Some _, Some _ => Some (set_h st (store (store (hp st) r (o + off) lo) r (o + off + 8) hi)) | _, _ => None end
                   | _, _ => None end
  | XLDF off x => match rdf st off, rdf st (off + 8) with I lo, I hi => Some (set_x st x (lo, hi)) | _, _ => None end
  | XSTF x off => match rdx st x with Some (lo, hi) => Some (wrf (wrf st off (I lo)) (off + 8) (I hi)) | None => None end
  | XLDK lo hi x => Some (set_x st x (lo, hi))
  | XMOV x y => match rdx st x with Some v => Some (set_x st y v) | None => None end
  | XLDA off x => match nth_error (ar st) (fidx off) with Some (I z) => Some (set_x st x (z, 0)) | _ => None end
  | XMOVL r x => match rdi st r with Some z => Some (set_x st x (z mod 2 ^ 32, 0)) | None => None end
  | PXOR x y => if Nat.eqb x y then Some (set_x st y (0, 0)) else vec st x y (words2 Z.lxor)
  | PAND x y => vec st x y (words2 Z.land)
  | PANDN x y => vec st x y (words2 andn)
  | PANDNM b off y => match rd st b, rdx st y with
                      | Ptr r o, Some v => match hp st r (o + off), hp st r (o + off + 8), (al st r + o + off) mod 16 =? 0 with
                                | Some lo, Some hi, true => Some (set_x st y (words2 andn (lo, hi) v)) | _, _, _ => None end
                      | _, _ => None end
  | PCMPEQL x y => if Nat.eqb x y then Some (set_x st y (W64 - 1, W64 - 1)) else vec st x y (lanes2 eq_lane)
  | PADDL x y => vec st x y (lanes2 (fun a b => b + a))
  | PSUBL x y => vec st x y (lanes2 (fun a b => b - a))
  | PSHUFD0 x y => match rdx st x with
                   | Some (lo, _) => let d := lo mod 2 ^ 32 in let w := d + 2 ^ 32 * d in Some (set_x st y (w, w)) | None => None end
  end.

Fixpoint exec (c : list instr) (st : state) : option state :=
  match c with [] => Some st | i :: c' => match step i st with Some st' => exec c' st' | None => None end end.
(** a loop of at most 200 rounds (the two loops here have 16 and 32); it ends when the zero flag is set after the body *)
Fixpoint loop (n : nat) (c : list instr) (st : state) : option state :=
  match n with
  | O => None
  | S n' => match exec c st with
            | Some st' => match zf st' with Some true => Some st' | Some false => loop n' c st' | None => None end
            | None => None end
  end.
Definition step_item (it : item) (st : state) : option state :=
  match it with Do i => step i st | Loop c => loop 200 c st | Call c => exec c st end.
Fixpoint run (c : list item) (st : state) : option state :=
  match c with [] => Some st | i :: c' => match step_item i st with Some st' => run c' st' | None => None end end.

(** a function starts with undefined registers, flags and frame *)
Definition init (h : heap) (a : nat -> Z) (args : list val) (frame : nat) : state :=
  St (repeat U 15) (repeat None 16) None None h a (repeat U frame) args.
End Exec.
