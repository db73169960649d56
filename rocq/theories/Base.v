(** * Base: common vocabulary of the model.

    Go values used throughout the model.  Nothing here models a particular file
    of /repo; it fixes how Go's built-in types and the parts of the Go standard
    library that are pure data manipulation (math/big byte conversion, copy,
    slicing) are represented. *)

From Coq Require Import ZArith String List Bool Lia.
Import ListNotations.
Open Scope Z_scope.

(** Bytes and byte strings.  A Go [byte] is a [Z] in 0..255; [wf_bytes]
    is the well-formedness predicate used in statements. *)
Definition byte := Z.
Definition bytes := list Z.
Definition is_byte (b : Z) : Prop := 0 <= b < 256.
Definition wf_bytes (l : bytes) : Prop := Forall is_byte l.
Definition is_byteb (b : Z) : bool := (0 <=? b) && (b <? 256).

(** Outcome of running Go code: a value, a run-time panic, or (for loops
    without a static bound) exhaustion of the fuel given by the caller. *)
Inductive go (A : Type) : Type :=
| Val (a : A)
| Panic (why : string)
| OutOfFuel.
Arguments Val {A} a.
Arguments Panic {A} why.
Arguments OutOfFuel {A}.

Definition bind {A B : Type} (m : go A) (f : A -> go B) : go B :=
  match m with
  | Val a => f a
  | Panic w => Panic w
  | OutOfFuel => OutOfFuel
  end.
Notation "'let*' x ':=' m 'in' k" := (bind m (fun x => k))
  (at level 200, x pattern, right associativity).

(** Go's [(T, error)] results: exactly one of value and error is meaningful. *)
Inductive res (A : Type) : Type :=
| Ok (a : A)
| Err (msg : string).
Arguments Ok {A} a.
Arguments Err {A} msg.

Definition zlen {A : Type} (l : list A) : Z := Z.of_nat (length l).

(** Slice expression [l[lo:hi]] on a slice whose capacity equals its length:
    panics unless 0 <= lo <= hi <= len. *)
Definition slice {A : Type} (l : list A) (lo hi : Z) : go (list A) :=
  if (0 <=? lo) && (lo <=? hi) && (hi <=? zlen l)
  then Val (firstn (Z.to_nat (hi - lo)) (skipn (Z.to_nat lo) l))
  else Panic "slice bounds out of range".

(** Index expression [l[i]]. *)
Definition index {A : Type} (l : list A) (i : Z) : go A :=
  if (0 <=? i) && (i <? zlen l)
  then match nth_error l (Z.to_nat i) with
       | Some a => Val a
       | None => Panic "index out of range"
       end
  else Panic "index out of range".

(** [copy(dst, src)] for non-overlapping slices: the new contents of dst. *)
Definition go_copy {A : Type} (dst src : list A) : list A :=
  firstn (length dst) src ++ skipn (length src) dst.

(** [copy(dst[off:], src)]: panics when off is not in 0..len(dst). *)
Definition copy_at {A : Type} (dst : list A) (off : Z) (src : list A) : go (list A) :=
  if (0 <=? off) && (off <=? zlen dst)
  then Val (firstn (Z.to_nat off) dst ++ go_copy (skipn (Z.to_nat off) dst) src)
  else Panic "slice bounds out of range".

(** [make([]byte, n)]. *)
Definition zeros (n : Z) : bytes := repeat 0 (Z.to_nat n).
Definition make_bytes (n : Z) : go bytes :=
  if 0 <=? n then Val (zeros n) else Panic "makeslice: len out of range".

(** [l[i] = v] with i known to be in range. *)
Fixpoint set_nth {A : Type} (i : nat) (v : A) (l : list A) : list A :=
  match l, i with
  | [], _ => []
  | _ :: t, O => v :: t
  | h :: t, S i' => h :: set_nth i' v t
  end.

Definition xor_bytes (a b : bytes) : bytes :=
  map (fun p => Z.lxor (fst p) (snd p)) (combine a b).

Fixpoint bytes_eqb (a b : bytes) : bool :=
  match a, b with
  | [], [] => true
  | x :: a', y :: b' => (x =? y) && bytes_eqb a' b'
  | _, _ => false
  end.

(** ** math/big byte conversions (Go standard library)

    [be2z l]      = new(big.Int).SetBytes(l)
    [big_bytes z] = z.Bytes(): minimal big-endian encoding of |z|, empty for 0
    [to_be n z]   = big-endian encoding on exactly n bytes (truncating) *)
Definition be2z (l : bytes) : Z := fold_left (fun acc b => acc * 256 + b) l 0.

Fixpoint to_be (n : nat) (z : Z) : bytes :=
  match n with
  | O => []
  | S n' => to_be n' (z / 256) ++ [z mod 256]
  end.

Definition byte_len (z : Z) : Z := if z =? 0 then 0 else Z.log2 (Z.abs z) / 8 + 1.
Definition big_bytes (z : Z) : bytes := to_be (Z.to_nat (byte_len z)) (Z.abs z).

(** ** Fixed-width words *)
Definition u8 (x : Z) : Z := x mod 2 ^ 8.
Definition u32 (x : Z) : Z := x mod 2 ^ 32.
Definition u64 (x : Z) : Z := x mod 2 ^ 64.
Definition add32 (x y : Z) : Z := u32 (x + y).
Definition not32 (x : Z) : Z := Z.lxor x (2 ^ 32 - 1).
Definition shl32 (x : Z) (n : Z) : Z := u32 (Z.shiftl x n).
Definition shr32 (x : Z) (n : Z) : Z := Z.shiftr x n.

(** ASCII strings as bytes, for Go string constants. *)
Fixpoint str_bytes (s : string) : bytes :=
  match s with
  | EmptyString => []
  | String c s' => Z.of_N (Ascii.N_of_ascii c) :: str_bytes s'
  end.
