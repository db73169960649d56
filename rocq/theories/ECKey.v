(** * ECKey: model of /repo/ec/key.go and /repo/ec/decompress.go.
    Citations "decompress.go" and "key.go" are to /repo/ec. *)
From Coq Require Import ZArith String List Bool.
From Verif Require Import Base Curves.
Import ListNotations.
Open Scope Z_scope.

(** math/big Int.Exp(x, e, m) for m > 0 and e >= 0: x^e mod m in 0..m-1, by
    square and multiply (only the value matters). *)
Fixpoint powm_pos (x : Z) (e : positive) (m : Z) : Z :=
  match e with
  | xH => x mod m
  | xO e' => let r := powm_pos x e' m in (r * r) mod m
  | xI e' => let r := powm_pos x e' m in ((r * r) mod m * x) mod m
  end.
Definition powm (x e m : Z) : Z :=
  match e with
  | Z0 => 1 mod m
  | Zpos e' => powm_pos x e' m
  | Zneg _ => 1 mod m
  end.

(** decompress.go:31-36.  The loop never ends for k = 0. *)
Fixpoint lowest_set_bit (fuel : nat) (k i : Z) : go Z :=
  match fuel with
  | O => OutOfFuel
  | S f => if Z.testbit k i then Val i else lowest_set_bit f k (i + 1)
  end.
Definition bit_len (k : Z) : Z := if k =? 0 then 0 else Z.log2 (Z.abs k) + 1.
Definition getLowestSetBit (k : Z) : go Z := lowest_set_bit (Z.to_nat (bit_len k)) k 0.

(** decompress.go:38-44 *)
Definition isEven (k : Z) : bool := negb (Z.testbit k 0).

(** state of fastLucasSequence: uh, vl, ql, qh, vh *)
Definition lucas_state := (Z * Z * Z * Z * Z)%type.

(** decompress.go:58-95: one iteration of the main loop with bit b of k *)
Definition lucas_step (p lp lq : Z) (st : lucas_state) (b : bool) : lucas_state :=
  let '(uh, vl, ql, qh, vh) := st in
  let ql := (ql * qh) mod p in
  if b then
    let qh := (ql * lq) mod p in
    let uh := (uh * vh) mod p in
    let vl := (vh * vl - lp * ql) mod p in
    let vh := (vh * vh - 2 * qh) mod p in
    (uh, vl, ql, qh, vh)
  else
    let qh := ql in
    let uh := (uh * vl - ql) mod p in
    let vh := (vh * vl - lp * ql) mod p in
    let vl := (vl * vl - 2 * ql) mod p in
    (uh, vl, ql, qh, vh).

(** decompress.go:97-113: the final odd step *)
Definition lucas_final (p lp lq : Z) (st : lucas_state) : Z * Z * Z :=
  let '(uh, vl, ql, qh, vh) := st in
  let ql := (ql * qh) mod p in
  let qh := (ql * lq) mod p in
  let uh := (uh * vl - ql) mod p in
  let vl := (vh * vl - lp * ql) mod p in
  let ql := (ql * qh) mod p in
  (uh, vl, ql).

(** decompress.go:115-126: doubling for the trailing zero bits of k.  The code
    multiplies uh by curveP (line 117) where a reduction was meant; transcribed. *)
Definition lucas_double (p : Z) (st : Z * Z * Z) (_ : nat) : Z * Z * Z :=
  let '(uh, vl, ql) := st in
  (uh * vl * p, (vl * vl - 2 * ql) mod p, (ql * ql) mod p).

(** decompress.go:47-129; bits j = n-1 .. s+1 of k *)
Definition fastLucasSequence (p lp lq k : Z) : go (Z * Z) :=
  let n := bit_len k in
  let* s := getLowestSetBit k in
  let js := map (fun i => n - 1 - Z.of_nat i) (seq 0 (Z.to_nat (n - 1 - s))) in
  let st := fold_left (fun st j => lucas_step p lp lq st (Z.testbit k j)) js (1, 2, 1, 1, lp) in
  let st := lucas_final p lp lq st in
  let '(uh, vl, _) := fold_left (lucas_double p) (seq 1 (Z.to_nat s)) st in
  Val (uh, vl).

(** decompress.go:176-209: the search loop.  [rng] is the sequence of values that
    rand.Prime(rand.Reader, bits) returns, one per call; OutOfFuel when the model's
    finite sequence is used up (the code would go on drawing).  rand errors are not
    modelled.  Inner loop: skip draws until one is < p with lp^2 - 4q a non-residue. *)
Fixpoint lucas_search (p lq fourQ qMinusOne legendExponent k : Z) (rng : list Z) : go (option Z) :=
  match rng with
  | [] => OutOfFuel
  | lp :: rng' =>
      if (lp <? p) && (powm (lp * lp - fourQ) legendExponent p =? qMinusOne) then
        let* uv := fastLucasSequence p lp lq k in
        let '(seqU, seqV) := uv in
        if (seqV * seqV) mod p =? fourQ then
          Val (Some (Z.shiftr (if Z.testbit seqV 0 then seqV + p else seqV) 1))
        else if (seqU =? 1) || (seqU =? qMinusOne) then Val None
        else lucas_search p lq fourQ qMinusOne legendExponent k rng'
      else lucas_search p lq fourQ qMinusOne legendExponent k rng'
  end.

(** decompress.go:132-210; nil is None *)
Definition curveSqrt (rng : list Z) (ySquare p : Z) : go (option Z) :=
  if Z.testbit p 1 then
    let tmp1 := Z.shiftr p 2 + 1 in
    let tmp2 := powm ySquare tmp1 p in
    let tmp3 := powm tmp2 2 p in
    if tmp3 =? ySquare then Val (Some tmp2) else Val None
  else
    let qMinusOne := p - 1 in
    let legendExponent := Z.shiftr qMinusOne 1 in
    let tmp4 := powm ySquare legendExponent p in
    if negb (tmp4 =? 1) then Val None else
    let k := Z.shiftl (Z.shiftr qMinusOne 2) 1 + 1 in
    let fourQ := Z.shiftl ySquare 2 mod p in
    lucas_search p ySquare fourQ qMinusOne legendExponent k rng.

(** an ecdsa.PublicKey *)
Record ecpub := { pk_curve : curve; pk_X : Z; pk_Y : Z }.

(** decompress.go:217-232: the right-hand side of the curve equation.  A = 0 when the
    curve is named like btcec's secp256k1, otherwise A = -3. *)
Definition y_square (c : curve) (x : Z) : Z :=
  let p := c_P c in
  let v := powm x 2 p in
  let v := if negb (String.eqb (c_name c) (c_name S256)) then (v + -3) mod p else v in
  let v := (v * x) mod p in
  (v + c_B c) mod p.

(** decompress.go:213-250 *)
Definition deCompress (rng : list Z) (yTilde : Z) (xValue : bytes) (c : curve) : go (res ecpub) :=
  let xCoord := be2z xValue in
  let ySqare := y_square c xCoord in
  let* yv := curveSqrt rng ySqare (c_P c) in
  match yv with
  | None => Val (Err "Invalid point compression")
  | Some yValue =>
      let yCoord :=
        if (isEven yValue && negb (yTilde =? 0)) || (negb (isEven yValue) && negb (yTilde =? 1))
        then c_P c - yValue else yValue in
      Val (Ok {| pk_curve := c; pk_X := xCoord; pk_Y := yCoord |})
  end.

(** key.go:88-110.  copy(buf[length+1-len(x):], x) panics when x does not fit in
    length+1 bytes (it may overwrite buf[0], which is set afterwards); Y.Bit(0) is
    the parity of Y. *)
Definition EncodePublicKey (key : ecpub) (compressed : bool) : go bytes :=
  let length := byte_size (pk_curve key) in
  let* buf := make_bytes (length * 2 + 1) in
  let x := big_bytes (pk_X key) in
  let* buf := copy_at buf (length + 1 - zlen x) x in
  if compressed then
    let buf := set_nth 0 (if Z.testbit (pk_Y key) 0 then 3 else 2) buf in
    slice buf 0 (length + 1)
  else
    let buf := set_nth 0 4 buf in
    let y := big_bytes (pk_Y key) in
    copy_at buf (length * 2 + 1 - zlen y) y.

(** key.go:112-144 for a non-nil curve *)
Definition DecodePublicKey (rng : list Z) (data : bytes) (c : curve) : go (res ecpub) :=
  let length := byte_size c in
  if zlen data <? length + 1 then Val (Err "invalid data length") else
  let* xb := slice data 1 (length + 1) in
  let x := be2z xb in
  let* d0 := index data 0 in
  if d0 =? 4 then
    if zlen data <? length * 2 + 1 then Val (Err "invalid data length") else
    let* yb := slice data (length + 1) (length * 2 + 1) in
    Val (Ok {| pk_curve := c; pk_X := x; pk_Y := be2z yb |})
  else if (d0 =? 2) || (d0 =? 3) then
    deCompress rng (Z.land d0 1) xb c
  else Val (Err "unknown encoding mode").
