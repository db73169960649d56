(** * SM3: model of /repo/sm3/sm3.go and /repo/sm3/sm3block.go *)
From Coq Require Import ZArith String List Bool.
From Verif Require Import Base.
Import ListNotations.
Open Scope Z_scope.

(** sm3block.go:108-110.  In Go a shift count >= 32 yields 0, as does
    [Z.shiftr] on a 32-bit value. *)
Definition sm3_rotl (x n : Z) : Z :=
  Z.lor (shl32 x (n mod 32)) (shr32 x (32 - n mod 32)).

(** sm3block.go:83-89 *)
Definition sm3_t (j : Z) : Z := if 16 <=? j then 0x7A879D8A else 0x79CC4519.

(** sm3block.go:91-98 *)
Definition sm3_ff (x y z j : Z) : Z :=
  if 16 <=? j then Z.land (Z.land (Z.lor x y) (Z.lor x z)) (Z.lor y z)
  else Z.lxor (Z.lxor x y) z.

(** sm3block.go:100-106 *)
Definition sm3_gg (x y z j : Z) : Z :=
  if 16 <=? j then Z.lor (Z.land x y) (Z.land (not32 x) z)
  else Z.lxor (Z.lxor x y) z.

(** sm3block.go:112-114 *)
Definition sm3_p0 (x : Z) : Z := Z.lxor (Z.lxor x (sm3_rotl x 9)) (sm3_rotl x 17).

(** sm3block.go:116-118 *)
Definition sm3_p1 (x : Z) : Z := Z.lxor (Z.lxor x (sm3_rotl x 15)) (sm3_rotl x 23).

(** sm3block.go:39-42: w[0..15] from the first 64 bytes of p (in range because
    of the loop guard [len(p) >= chunk] at line 38). *)
Definition load_w (p : bytes) (w : list Z) : list Z :=
  fold_left (fun w i =>
    let j := (i * 4)%nat in
    set_nth i
      (Z.lor (Z.lor (Z.lor (shl32 (nth j p 0) 24) (shl32 (nth (j + 1) p 0) 16))
                    (shl32 (nth (j + 2) p 0) 8)) (nth (j + 3) p 0)) w)
    (seq 0 16) w.

(** sm3block.go:43-45 *)
Definition expand_w (w : list Z) : list Z :=
  fold_left (fun w i =>
    set_nth i
      (Z.lxor (Z.lxor
         (sm3_p1 (Z.lxor (Z.lxor (nth (i - 16) w 0) (nth (i - 9) w 0))
                         (sm3_rotl (nth (i - 3) w 0) 15)))
         (sm3_rotl (nth (i - 13) w 0) 7)) (nth (i - 6) w 0)) w)
    (seq 16 52) w.

(** sm3block.go:47-49 *)
Definition make_w1 (w : list Z) (w1 : list Z) : list Z :=
  fold_left (fun w1 i => set_nth i (Z.lxor (nth i w 0) (nth (i + 4) w 0)) w1) (seq 0 64) w1.

(** the eight words of the state, A to H *)
Definition regs := (Z * Z * Z * Z * Z * Z * Z * Z)%type.

(** sm3block.go:53-66: one round *)
Definition sm3_round (w w1 : list Z) (st : regs) (j : nat) : regs :=
  let '(a, b, c, d, e, f, g, h) := st in
  let jz := Z.of_nat j in
  let ss1 := sm3_rotl (add32 (add32 (sm3_rotl a 12) e) (sm3_rotl (sm3_t jz) jz)) 7 in
  let ss2 := Z.lxor ss1 (sm3_rotl a 12) in
  let tt1 := add32 (add32 (add32 (sm3_ff a b c jz) d) ss2) (nth j w1 0) in
  let tt2 := add32 (add32 (add32 (sm3_gg e f g jz) h) ss1) (nth j w 0) in
  let d := c in
  let c := sm3_rotl b 9 in
  let b := a in
  let a := tt1 in
  let h := g in
  let g := sm3_rotl f 19 in
  let f := e in
  let e := sm3_p0 tt2 in
  (a, b, c, d, e, f, g, h).

(** sm3block.go:32-81.  The loop at line 38 consumes 64 bytes per iteration;
    [fuel] bounds the number of iterations.  [w] and [w1] are allocated once
    (lines 33-34) and carried across iterations, as in the code. *)
Fixpoint block_loop (fuel : nat) (w w1 : list Z) (hs : regs) (p : bytes) : go regs :=
  if 64 <=? zlen p then
    match fuel with
    | O => OutOfFuel
    | S fuel' =>
        let w := expand_w (load_w p w) in
        let w1 := make_w1 w w1 in
        let '(h0, h1, h2, h3, h4, h5, h6, h7) := hs in
        let '(a, b, c, d, e, f, g, h) := fold_left (sm3_round w w1) (seq 0 64) hs in
        block_loop fuel' w w1
          (Z.lxor h0 a, Z.lxor h1 b, Z.lxor h2 c, Z.lxor h3 d,
           Z.lxor h4 e, Z.lxor h5 f, Z.lxor h6 g, Z.lxor h7 h)
          (skipn 64 p)
    end
  else Val hs.

(** sm3block.go:28-37, 80.  [length p] iterations always suffice. *)
Definition block (hs : regs) (p : bytes) : go regs :=
  block_loop (length p) (repeat 0 68) (repeat 0 64) hs p.

(** sm3.go:51-56.  h is the tuple of the eight chaining words. *)
Record digest := mkDigest { d_h : regs; d_x : bytes; d_nx : Z; d_len : Z }.

(** sm3.go:38-48, 58-69: Reset keeps the stale buffer contents x. *)
Definition init_h : regs :=
  (0x7380166F, 0x4914B2B9, 0x172442D7, 0xDA8A0600,
   0xA96F30BC, 0x163138AA, 0xE38DEE4D, 0xB0FB0E4E).
Definition Reset (d : digest) : digest := mkDigest init_h (d_x d) 0 0.

(** sm3.go:71-76 (the zero value has all-zero buffer) *)
Definition New : digest := Reset (mkDigest (0, 0, 0, 0, 0, 0, 0, 0) (repeat 0 64) 0 0).

(** sm3.go:85-93: fill a partially filled buffer *)
Definition write_fill (d : digest) (p : bytes) : go (digest * bytes) :=
  if 0 <? d_nx d then
    let* tail := slice (d_x d) (d_nx d) 64 in
    let n := Z.min (zlen tail) (zlen p) in
    let* x := copy_at (d_x d) (d_nx d) p in
    let nx := d_nx d + n in
    let* rest := slice p n (zlen p) in
    if nx =? 64 then
      let* h := block (d_h d) x in
      Val (mkDigest h x 0 (d_len d), rest)
    else Val (mkDigest (d_h d) x nx (d_len d), rest)
  else Val (d, p).

(** sm3.go:94-98: whole blocks; [len(p) &^ 63] *)
Definition write_blocks (d : digest) (p : bytes) : go (digest * bytes) :=
  if 64 <=? zlen p then
    let n := Z.ldiff (zlen p) 63 in
    let* bl := slice p 0 n in
    let* h := block (d_h d) bl in
    let* rest := slice p n (zlen p) in
    Val (mkDigest h (d_x d) (d_nx d) (d_len d), rest)
  else Val (d, p).

(** sm3.go:99-101: keep the tail *)
Definition write_tail (d : digest) (p : bytes) : digest :=
  if 0 <? zlen p
  then mkDigest (d_h d) (go_copy (d_x d) p) (Z.min 64 (zlen p)) (d_len d)
  else d.

(** sm3.go:82-103.  Result: (bytes written, new state); the error is always nil. *)
Definition Write (d : digest) (p : bytes) : go (Z * digest) :=
  let nn := zlen p in
  let d := mkDigest (d_h d) (d_x d) (d_nx d) (u64 (d_len d + u64 nn)) in
  let* (d, p) := write_fill d p in
  let* (d, p) := write_blocks d p in
  Val (nn, write_tail d p).

(** sm3.go:136-142 *)
Definition h_bytes (hs : regs) : bytes :=
  let '(a, b, c, d, e, f, g, h) := hs in
  flat_map (fun s => [u8 (shr32 s 24); u8 (shr32 s 16); u8 (shr32 s 8); u8 s])
           [a; b; c; d; e; f; g; h].

(** sm3.go:112-145.  Works on a copy of the state when called through Sum. *)
Definition checkSum (d : digest) : go bytes :=
  let len := d_len d in
  let tmp := set_nth 0 0x80 (repeat 0 64) in
  let* d1 :=
    (if len mod 64 <? 56 then
       let* s := slice tmp 0 (56 - len mod 64) in Write d s
     else
       let* s := slice tmp 0 (64 + 56 - len mod 64) in Write d s) in
  let len := u64 (Z.shiftl len 3) in
  let tmp := fold_left (fun t i => set_nth i (u8 (Z.shiftr len (56 - 8 * Z.of_nat i))) t)
                       (seq 0 8) tmp in
  let* s := slice tmp 0 8 in
  let* d2 := Write (snd d1) s in
  if negb (d_nx (snd d2) =? 0) then Panic "d.nx != 0"
  else Val (h_bytes (d_h (snd d2))).

(** sm3.go:105-110: method Sum(in): works on a copy, appends to [in] *)
Definition SumMethod (d : digest) (inp : bytes) : go bytes :=
  let* hash := checkSum d in Val (inp ++ hash).

(** sm3.go:147-153: package function Sum(data) *)
Definition Sum (data : bytes) : go bytes :=
  let d := Reset (mkDigest (0, 0, 0, 0, 0, 0, 0, 0) (repeat 0 64) 0 0) in
  let* (_, d) := Write d data in
  checkSum d.

(** Operation histories on one hash object, used by the properties. *)
Inductive op := OpWrite (p : bytes) | OpSum (inp : bytes) | OpReset.

(** What a client of the object observes: the count returned by Write, or the
    bytes returned by Sum. *)
Inductive obs := ObsWrite (n : Z) | ObsSum (out : bytes) | ObsReset.

Definition step (d : digest) (o : op) : go (obs * digest) :=
  match o with
  | OpWrite p => let* (n, d') := Write d p in Val (ObsWrite n, d')
  | OpSum inp => let* out := SumMethod d inp in Val (ObsSum out, d)
  | OpReset => Val (ObsReset, Reset d)
  end.

Fixpoint run (d : digest) (ops : list op) : go (list obs * digest) :=
  match ops with
  | [] => Val ([], d)
  | o :: ops' =>
      let* (ob, d') := step d o in
      let* (obs, d'') := run d' ops' in
      Val (ob :: obs, d'')
  end.
