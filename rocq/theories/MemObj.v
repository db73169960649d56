(** * MemObj: decoded keys and signatures that share memory with the buffer they were read from; SM4 on overlapping buffers *)
From Coq Require Import ZArith String List Bool.
From Verif Require Import Base Curves ECKey Keypair Signature SM4 AES VRF Mem.
Import ListNotations.
Open Scope Z_scope.

(** the slice expression s[i:] for i at most the length *)
Definition tail_of (s : sl) (i : nat) : sl :=
  {| s_arr := s_arr s; s_off := s_off s + i; s_len := s_len s - i; s_cap := s_cap s - i |}.
(** make([]byte, n) followed by copy of n bytes: a new array *)
Definition fresh (hp : heap) (bs : bytes) : heap * sl :=
  (hp ++ [bs], {| s_arr := length hp; s_off := 0; s_len := length bs; s_cap := length bs |}).

(** The Value of a Signature: numbers and strings, which share no memory with anything, or a slice *)
Inductive mval := MOwn (v : sigval) | MSlice (s : sl).
Record msig := { ms_Scheme : Z; ms_Value : mval }.
(** what the object is worth in a given state of the memory *)
Definition sig_now (hp : heap) (m : msig) : signature :=
  {| sg_Scheme := ms_Scheme m; sg_Value := match ms_Value m with MOwn v => v | MSlice s => VBytes (view hp s) end |}.
Definition desM_fail (hp : heap) (m : string) : go (heap * res msig) := Val (hp, Err (String.append "failed deserializing signature: " m)).

(** signature.go:309-346 on a heap: lines 313-314 keep the slice, 336-343 copy *)
Definition deserialize_dataM (hp : heap) (scheme : Z) (data : sl) : go (heap * res msig) :=
  if ecdsa_scheme scheme then
    if Z.of_nat (s_len data) =? 65 then Val (hp, Ok {| ms_Scheme := scheme; ms_Value := MSlice data |}) else
    let* r := deserializeDSA (view hp data) in
    match r with
    | Err m => desM_fail hp m
    | Ok (R, Sv) => Val (hp, Ok {| ms_Scheme := scheme; ms_Value := MOwn (VDSA R Sv None) |})
    end
  else if scheme =? SM3withSM2 then
    let i := find_zero (view hp data) 0 in
    if i >=? Z.of_nat (s_len data) then desM_fail hp "invalid format" else
    let* id := slice (view hp data) 0 i in
    let* r := deserializeDSA (view hp (tail_of data (Z.to_nat (i + 1)))) in
    match r with
    | Err m => desM_fail hp m
    | Ok (R, Sv) => Val (hp, Ok {| ms_Scheme := scheme; ms_Value := MOwn (VSM2 R Sv None id) |})
    end
  else if (scheme =? SHA512withEDDSA) || (scheme =? KECCAK256WithECDSA) then
    let (hp, val) := fresh hp (view hp data) in
    Val (hp, Ok {| ms_Scheme := scheme; ms_Value := MSlice val |})
  else desM_fail hp "unknown signature scheme".
(** signature.go:292-348 on a heap *)
Definition DeserializeM (hp : heap) (buf : sl) : go (heap * res msig) :=
  if Z.of_nat (s_len buf) <? 2 then desM_fail hp "invalid argument" else
  if Z.of_nat (s_len buf) =? 64 then deserialize_dataM hp SHA256withECDSA buf else
  let* b0 := index (view hp buf) 0 in
  deserialize_dataM hp b0 (tail_of buf 1).

(** secp256k1.go:22-41 on a heap: the rotation happens in the array of the value; copy reads before it writes *)
Definition ConvertToEthCompatibleM (hp : heap) (sig : sl) : go (heap * res sl) :=
  let* (hp, r) := DeserializeM hp sig in
  match r with
  | Err e => Val (hp, Err e)
  | Ok s =>
      match ms_Value s with
      | MOwn _ => Val (hp, Err "invalid signature type"%string)
      | MSlice t =>
          if negb (Z.of_nat (s_len t) =? 65) then Val (hp, Err "invalid signature length"%string) else
          let* t0 := index (view hp t) 0 in
          let v := u8 (t0 - 27) in
          let hp := store hp (s_arr t) (s_off t) (view hp (tail_of t 1)) in
          let hp := store hp (s_arr t) (s_off t + 64) [v] in
          Val (hp, Ok t)
      end
  end.

(** A private key: an Ed25519 key is a slice, the others hold numbers of their own *)
Inductive mpriv := MKey (k : privkey) | MKeySlice (s : sl).
Definition key_now (hp : heap) (k : mpriv) : privkey :=
  match k with MKey k => k | MKeySlice s => SkEd (view hp s) end.
Section Env.
Variable sbm : curve -> bytes -> Z * Z.
(** key.go:334-395 on a heap; only the Ed25519 case (371-382) differs from the model on values: line 377 converts data[2:]
    without copying.  big.Int.SetBytes copies. *)
Definition DeserializePrivateKeyM (rng : list Z) (hp : heap) (data : sl) : go (res (option mpriv)) :=
  let d := view hp data in
  let* t := index d 0 in
  if t =? PK_EDDSA then
    let* l := index d 1 in
    if l =? L_ED25519 then
      if Z.of_nat (s_len data) <? 2 + 64 then
        Val (Err "deserializing private key failed: not enough length for Ed25519 key"%string)
      else Val (Ok (Some (MKeySlice (tail_of data 2))))
    else Val (Err "deserializing private key failed: unknown EdDSA curve type"%string)
  else
    let* r := DeserializePrivateKey sbm rng d in
    match r with
    | Err e => Val (Err e)
    | Ok None => Val (Ok None)
    | Ok (Some k) => Val (Ok (Some (MKey k)))
    end.
End Env.

(** A public key: the same *)
Inductive mpub := MPub (k : pubkey) | MPubSlice (s : sl).
Definition pub_now (hp : heap) (k : mpub) : pubkey :=
  match k with MPub k => k | MPubSlice s => PkEd (view hp s) end.
(** key.go:212-273 on a heap: lines 243-244 copy *)
Definition DeserializePublicKeyM (rng : list Z) (hp : heap) (data : sl) : go (heap * res mpub) :=
  let* r := DeserializePublicKey rng (view hp data) in
  match r with
  | Err e => Val (hp, Err e)
  | Ok (PkEd b) => let (hp, pk) := fresh hp b in Val (hp, Ok (MPubSlice pk))
  | Ok k => Val (hp, Ok (MPub k))
  end.

(** ** SM4 on a heap *)
(** stores to dst[j], dst[j+1], ...; the first one beyond the length panics, what was stored before stays (the second component is
    the panic, if any) *)
Fixpoint put_bytes (hp : heap) (dst : sl) (j : nat) (bs : bytes) : heap * option string :=
  match bs with
  | [] => (hp, None)
  | b :: bs' => if (j <? s_len dst)%nat then put_bytes (store hp (s_arr dst) (s_off dst + j) [b]) dst (S j) bs'
                else (hp, Some "index out of range"%string)
  end.
(** block.go:58-92: the four words are read (61-64) before the rounds, the output is stored byte by byte (86-91) *)
Definition cryptBlockM (subkeys : list Z) (hp : heap) (dst src : sl) (decrypt : bool) : heap * option string :=
  if (s_len src <? 16)%nat then (hp, Some "index out of range"%string) else
  let s := view hp src in
  let m := (load_word s 0, load_word s 1, load_word s 2, load_word s 3) in
  let m := fold_left (fun m j => crypt_round m (nth j subkeys 0)) (round_indices decrypt) m in
  put_bytes hp dst 0 (store_words m).
