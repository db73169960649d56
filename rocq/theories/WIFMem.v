(** * WIFMem: the WIF functions on a heap: which copies of the key they overwrite and which they leave

    The heap has the arrays that hold bytes of the key outside big integers: the arrays of bytes.Buffer,
    of Bytes(), of the decimal texts and of the conversions between strings and slices.  Not in it: the
    big integers, the state of the hash functions, the text that is returned. *)
From Coq Require Import ZArith String List Bool.
From Verif Require Import Base Curves ECKey Keypair Mem.
Import ListNotations.
Open Scope Z_scope.

(** a new array *)
Definition alloc (hp : heap) (bs : bytes) : heap * sl :=
  (hp ++ [bs], {| s_arr := List.length hp; s_off := 0; s_len := List.length bs; s_cap := List.length bs |}).
Definition nil_sl : sl := {| s_arr := 0; s_off := 0; s_len := 0; s_cap := 0 |}.
(** the slice expression s[lo:hi] *)
Definition reslice (s : sl) (lo hi : nat) : go sl :=
  if (lo <=? hi)%nat && (hi <=? s_cap s)%nat
  then Val {| s_arr := s_arr s; s_off := s_off s + lo; s_len := hi - lo; s_cap := s_cap s - lo |}
  else Panic "slice bounds out of range".
(** wif.go:78-82 *)
Fixpoint clear_from (n i : nat) (hp : heap) (s : sl) : heap :=
  match n with
  | O => hp
  | S n' => clear_from n' (S i) (store hp (s_arr s) (s_off s + i) [0]) s
  end.
Definition clearBytes (hp : heap) (s : sl) : heap := clear_from (s_len s) 0 hp s.
(** math/big nat.bytes and Int.Bytes on 64-bit words: an array of whole words, the result without
    the leading zeros *)
Definition allocBig (hp : heap) (z : Z) : heap * sl :=
  let b := big_bytes z in
  let n := List.length b in
  let pad := ((8 - n mod 8) mod 8)%nat in
  (hp ++ [repeat 0 pad ++ b], {| s_arr := List.length hp; s_off := pad; s_len := n; s_cap := n |}).

(** bytes.Buffer, writes only: the slice buf; [pol cap len n] is the spare capacity after a write of n
    bytes for which the capacity did not suffice *)
Definition policy := nat -> nat -> nat -> nat.
Definition bwrite (pol : policy) (hp : heap) (b : sl) (bs : bytes) : heap * sl :=
  append (pol (s_cap b) (s_len b) (List.length bs)) hp b bs.
(** bytes/buffer.go (Go 1.11 to 1.18), grow: 64 bytes for the first array, then 2 cap + n for n more bytes *)
Definition go_pol : policy := fun cap len n => if (cap =? 0)%nat then (64 - n)%nat else (2 * cap - len)%nat.

(** key.go:305-308: the loop that writes zeros *)
Fixpoint bzeros (pol : policy) (n : nat) (hp : heap) (b : sl) : heap * sl :=
  match n with
  | O => (hp, b)
  | S n' => let (hp, b) := bwrite pol hp b [0] in bzeros pol n' hp b
  end.

(** key.go:297-331 *)
Definition SerializePrivateKeyM (pol : policy) (hp : heap) (pri : privkey) : heap * go sl :=
  match pri with
  | SkEC alg d k =>
      let (hp, buf) := if alg =? ECDSA then bwrite pol hp nil_sl [PK_ECDSA]
                       else if alg =? SM2 then bwrite pol hp nil_sl [PK_SM2] else (hp, nil_sl) in
      match GetCurveLabel (pk_curve k) with
      | Err e => (hp, Panic e)
      | Ok label =>
          let (hp, buf) := bwrite pol hp buf [label] in
          let size := byte_size (pk_curve k) in
          let (hp, dBytes) := allocBig hp d in
          let (hp, buf) := bzeros pol (Z.to_nat (size - Z.of_nat (s_len dBytes))) hp buf in
          let (hp, buf) := bwrite pol hp buf (view hp dBytes) in
          match EncodePublicKey k true with
          | Val e => let (hp, buf) := bwrite pol hp buf e in (hp, Val buf)
          | Panic w => (hp, Panic w)
          | OutOfFuel => (hp, OutOfFuel)
          end
      end
  | SkEd b =>
      let (hp, buf) := bwrite pol hp nil_sl [PK_EDDSA] in
      let (hp, buf) := bwrite pol hp buf [L_ED25519] in
      let (hp, buf) := bwrite pol hp buf b in
      (hp, Val buf)
  | SkEth d k =>
      let (hp, buf) := bwrite pol hp nil_sl [PK_ETHECDSA] in
      let (hp, t) := alloc hp (eth_FromECDSA d k) in
      let (hp, buf) := bwrite pol hp buf (view hp t) in
      (hp, Val buf)
  | SkOther _ => (hp, Panic "unkown private key type")
  end.

(** math/big Int.Text(10) of a non-negative number; fuel: number of digits *)
Fixpoint dec_digits (fuel : nat) (n : Z) (acc : bytes) : bytes :=
  match fuel with
  | O => acc
  | S f => if n =? 0 then acc else dec_digits f (n / 10) (48 + n mod 10 :: acc)
  end.
Definition dec_text (n : Z) : bytes := if n =? 0 then [48] else dec_digits (S (Z.to_nat (Z.log2 n))) n [].
(** math/big Int.SetString(text, 10), unsigned digits only *)
Fixpoint dec_value (acc : Z) (s : bytes) : option Z :=
  match s with
  | [] => Some acc
  | c :: s' => if (48 <=? c) && (c <=? 57) then dec_value (acc * 10 + (c - 48)) s' else None
  end.
Definition setString (s : bytes) : option Z := match s with [] => None | _ => dec_value 0 s end.
(** itchyny/base58-go v0.1.0 Decode: a '0' for each leading '1' except a last character, then the
    number in decimal *)
Fixpoint b58_lead (s : bytes) : bytes :=
  match s with
  | [] => []
  | c :: s' =>
      match s' with
      | [] => []
      | _ => if c =? nth 0 b58_alphabet 0 then 48 :: b58_lead s' else []
      end
  end.
Definition b58_text (s : bytes) : res bytes :=
  match s with
  | [] => Ok []
  | _ => match b58_value 0 s with Err e => Err e | Ok n => Ok (b58_lead s ++ dec_text n) end
  end.

Section Env.
Variable sbm : curve -> bytes -> Z * Z.
Variable sha256 : bytes -> bytes.

(** wif.go:36-51 on a heap; [s1] and [s2] are the spare capacities of the two appends should they
    need new arrays.  Line 50 makes two copies of the decimal text: the string and the slice. *)
Definition Key2WIFM (pol : policy) (s1 s2 : nat) (hp : heap) (key : privkey) : heap * go (res bytes) :=
  let (hp, r) := SerializePrivateKeyM pol hp key in
  let bad : go (res bytes) := Val (Err "only ECDSA P-256 keys support WIF"%string) in
  match r with
  | Panic w => (hp, Panic w)
  | OutOfFuel => (hp, OutOfFuel)
  | Val data =>
      if (s_len data <? 34)%nat then (hp, bad) else
      if negb (nth 0 (view hp data) 0 =? PK_ECDSA) then (hp, bad) else
      if negb (nth 1 (view hp data) 0 =? L_P256) then (hp, bad) else
      match reslice data 1 34 with
      | Val buf =>
          let hp := store hp (s_arr buf) (s_off buf) [128] in
          let (hp, buf) := append s1 hp buf [1] in
          let sum := sha256 (sha256 (view hp buf)) in
          match slice sum 0 4 with
          | Val s4 =>
              let (hp, buf) := append s2 hp buf s4 in
              let bi := be2z (view hp buf) in
              let hp := clearBytes hp data in
              let hp := clearBytes hp buf in
              let (hp, str) := alloc hp (dec_text bi) in
              let (hp, src) := alloc hp (view hp str) in
              (hp, Val (Ok (b58_encode bi)))
          | Panic w => (hp, Panic w)
          | OutOfFuel => (hp, OutOfFuel)
          end
      | Panic w => (hp, Panic w)
      | OutOfFuel => (hp, OutOfFuel)
      end
  end.

(** wif.go:53-76 on a heap: the text of Decode, the string of line 58, the array of Bytes.
    The private key is made from a copy (big.Int.SetBytes). *)
Definition WIF2KeyM (hp : heap) (wif : bytes) : heap * go (res privkey) :=
  match b58_text wif with
  | Err e => (hp, Val (Err e))
  | Ok text =>
      let (hp, buf) := alloc hp text in
      let (hp, str) := alloc hp (view hp buf) in
      let bi := setString (view hp str) in
      let hp := clearBytes hp buf in
      match bi with
      | None => (hp, Val (Err "parse WIF error, invalid base58 data"%string))
      | Some bi =>
          let (hp, buf) := allocBig hp bi in
          let pos := Z.of_nat (s_len buf) - 4 in
          if negb (pos =? 34) then (hp, Val (Err "invalid length"%string)) else
          let r :=
            let* head := slice (view hp buf) 0 pos in
            let* s4 := slice (sha256 (sha256 head)) 0 4 in
            let* tail := slice (view hp buf) pos (Z.of_nat (s_len buf)) in
            if negb (bytes_eqb s4 tail) then Val None else
            let* kb := slice (view hp buf) 1 (pos - 1) in
            Val (Some (ConstructPrivateKey sbm kb P256)) in
          match r with
          | Val None => (hp, Val (Err "invalid WIF data, checksum failed"%string))
          | Val (Some (d, k)) => (clearBytes hp buf, Val (Ok (SkEC ECDSA d k)))
          | Panic w => (hp, Panic w)
          | OutOfFuel => (hp, OutOfFuel)
          end
      end
  end.

(** key.go:423-443 on a heap: the deferred clearBytes of line 434 runs on every way out, also when
    the function panics *)
Definition GetP256KeyPairFromWIFM (hp : heap) (wif : bytes) : heap * go (res privkey) :=
  match b58_text wif with
  | Err e => (hp, Val (Err e))
  | Ok text =>
      let (hp, buf) := alloc hp text in
      let (hp, str) := alloc hp (view hp buf) in
      let bi := setString (view hp str) in
      let hp := clearBytes hp buf in
      match bi with
      | None => (hp, Val (Err "parse WIF error, invalid base58 data"%string))
      | Some bi =>
          let (hp, buf) := allocBig hp bi in
          let pos := Z.of_nat (s_len buf) - 4 in
          let r :=
            let* head := slice (view hp buf) 0 pos in
            let* s4 := slice (sha256 (sha256 head)) 0 4 in
            let* tail := slice (view hp buf) pos (Z.of_nat (s_len buf)) in
            if negb (bytes_eqb s4 tail) then Val (Err "invalid WIF data, checksum failed"%string) else
            let* kb := slice (view hp buf) 1 (pos - 1) in
            let '(d, k) := ConstructPrivateKey sbm kb P256 in
            Val (Ok (SkEC ECDSA d k)) in
          (clearBytes hp buf, r)
      end
  end.
End Env.
