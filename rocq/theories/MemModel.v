(** The API as programs on memory, byte access by byte access, and goroutines.

    [ApiModel] computes with byte strings.  Here byte slices are windows on arrays, the functions
    read and write single bytes of arrays (in Go's order of calls, see each definition), and several
    goroutines run such programs interleaved between any two accesses.  Field and group elements are
    values (their pointers and tables are in [ShareModel]). *)
From Coq Require Import List ZArith Lia Bool Arith.
From Verif Require Import GoBase FieldModel ScalarModel GroupModel ApiModel.
Import ListNotations.
Open Scope nat_scope.

(** ** Memory and programs *)

(** An array is one that existed when the goroutines were started, [Sh n], or the n-th that the
    running goroutine made, [Own n].  (Goroutines hand nothing to each other here, so none has the
    address of an array another one made.) *)
Inductive addr : Set := Sh (n : nat) | Own (n : nat).
(** The memory a goroutine sees. *)
Record mem : Set := Mem { m_sh : list bytes; m_own : list bytes }.
Definition arr (m : mem) (a : addr) : option bytes :=
  match a with Sh n => nth_error (m_sh m) n | Own n => nth_error (m_own m) n end.
Definition cell (m : mem) (a : addr) (i : nat) : option Z :=
  match arr m a with Some l => nth_error l i | None => None end.
Definition set_nth {A} (l : list A) (i : nat) (v : A) : list A := firstn i l ++ v :: skipn (S i) l.
Definition set_cell (m : mem) (a : addr) (i : nat) (v : Z) : mem :=
  match a with
  | Sh n => Mem (set_nth (m_sh m) n (set_nth (nth n (m_sh m) []) i v)) (m_own m)
  | Own n => Mem (m_sh m) (set_nth (m_own m) n (set_nth (nth n (m_own m) []) i v))
  end.
(** a new array *)
Definition push (m : mem) (d : bytes) : mem := Mem (m_sh m) (m_own m ++ [d]).

(** A program: finished with a result, or an access to memory and what to do next. *)
Inductive prog (A : Type) : Type :=
| Ret (r : res A)
| Get (a : addr) (i : nat) (k : Z -> prog A)
| Put (a : addr) (i : nat) (v : Z) (k : prog A)
| New (n : nat) (k : addr -> prog A).
Arguments Ret {A} r.
Arguments Get {A} a i k.
Arguments Put {A} a i v k.
Arguments New {A} n k.

Fixpoint bindp {A B} (p : prog A) (f : A -> prog B) : prog B :=
  match p with
  | Ret (Ok a) => f a
  | Ret (Err e) => Ret (Err e)
  | Ret Panic => Ret Panic
  | Get a i k => Get a i (fun v => bindp (k v) f)
  | Put a i v k => Put a i v (bindp k f)
  | New n k => New n (fun a => bindp (k a) f)
  end.
Notation "'let*' x := e 'in' f" := (bindp e (fun x => f))
  (at level 200, x name, e at level 100, f at level 200, right associativity).
Definition ret {A} (a : A) : prog A := Ret (Ok a).
Definition lift {A} (r : res A) : prog A := Ret r.

(** One access; None: the program is finished.  An access outside of an array is a panic. *)
Definition pstep {A} (p : prog A) (m : mem) : option (prog A * mem) :=
  match p with
  | Ret _ => None
  | Get a i k => Some (match cell m a i with Some v => (k v, m) | None => (Ret Panic, m) end)
  | Put a i v k => Some (match cell m a i with Some _ => (k, set_cell m a i v) | None => (Ret Panic, m) end)
  | New n k => Some (k (Own (length (m_own m))), push m (repeat 0%Z n))
  end.
(** The whole program without interruption. *)
Fixpoint exec {A} (p : prog A) (m : mem) : res A * mem :=
  match p with
  | Ret r => (r, m)
  | Get a i k => match cell m a i with Some v => exec (k v) m | None => (Panic, m) end
  | Put a i v k => match cell m a i with Some _ => exec k (set_cell m a i v) | None => (Panic, m) end
  | New n k => exec (k (Own (length (m_own m)))) (push m (repeat 0%Z n))
  end.

(** ** Goroutines *)

(** the arrays that existed before, and each goroutine with the arrays it made *)
Record machine (A : Type) : Type := Machine { c_sh : list bytes; c_threads : list (prog A * list bytes) }.
Arguments Machine {A} c_sh c_threads.
Arguments c_sh {A} m.
Arguments c_threads {A} m.
(** goroutine [t] makes one access *)
Definition cstep {A} (c : machine A) (t : nat) : machine A :=
  match nth_error (c_threads c) t with
  | None => c
  | Some (p, own) =>
      match pstep p (Mem (c_sh c) own) with
      | None => c
      | Some (p', m') => Machine (m_sh m') (set_nth (c_threads c) t (p', m_own m'))
      end
  end.
(** a schedule says who is next *)
Definition crun {A} (c : machine A) (schedule : list nat) : machine A := fold_left cstep schedule c.
Definition start {A} (sh : list bytes) (ps : list (prog A)) : machine A :=
  Machine sh (map (fun p => (p, [])) ps).

(** ** Slices *)
Record sl : Set := SL { s_arr : addr; s_off : nat; s_len : nat; s_cap : nat }.

Fixpoint read_from (a : addr) (i n : nat) : prog bytes :=
  match n with
  | O => ret []
  | S k => Get a i (fun v => let* r := read_from a (S i) k in ret (v :: r))
  end.
(** reading all bytes of a slice *)
Definition read (s : sl) : prog bytes := read_from (s_arr s) (s_off s) (s_len s).
Fixpoint write_from {A} (a : addr) (i : nat) (d : bytes) (k : prog A) : prog A :=
  match d with [] => k | v :: r => Put a i v (write_from a (S i) r k) end.
(** [s[i]] and [s[i] = v] *)
Definition idx (s : sl) (i : nat) : prog Z :=
  if i <? s_len s then Get (s_arr s) (s_off s + i) ret else Ret Panic.
Definition set (s : sl) (i : nat) (v : Z) : prog unit :=
  if i <? s_len s then Put (s_arr s) (s_off s + i) v (ret tt) else Ret Panic.
(** [make([]byte, n)] *)
Definition make (n : nat) : prog sl := New n (fun a => ret (SL a 0 n n)).
(** a new slice with the content [d], written byte by byte, and [x] bytes of spare capacity *)
Definition fresh (d : bytes) (x : nat) : prog sl :=
  New (length d + x) (fun a => write_from a 0 d (ret (SL a 0 (length d) (length d + x)))).
(** [copy(s, t)] of all of [d] into the beginning of [s] *)
Definition fill (s : sl) (i : nat) (d : bytes) : prog unit :=
  if i + length d <=? s_len s then write_from (s_arr s) (s_off s + i) d (ret tt) else Ret Panic.
(** [s[lo:hi]]: panics beyond the capacity *)
Definition reslice (s : sl) (lo hi : nat) : res sl :=
  if (lo <=? hi) && (hi <=? s_cap s) then Ok (SL (s_arr s) (s_off s + lo) (hi - lo) (s_cap s - lo)) else Panic.

(** ** Keys, key pairs, signatures in memory *)

(** [PrivateKey] (key_model.go:34-38), [KeyPair] (key_pair.go:10-13), [Signature]
    (signature.go:17-20) with slices for their Raw, R, S fields; a [PublicKey] is its Raw slice. *)
Record mpriv : Set := MPriv { mk_value : Z; mk_raw : sl }.
Record mpair : Set := MPair { mp_priv : option mpriv; mp_pub : sl }.
Record msig : Set := MSig { mR : sl; mS : sl }.

Section Api.
Variable H512 : list bytes -> bytes.
Variable H256 : bytes -> bytes.
Variable aesE aesD : bytes -> bytes -> bytes.
(** the spare capacity of the array that [append] makes for n bytes (unspecified in Go) *)
Variable spare : nat -> nat.

(** [append(s, t...)]: in place when there is room *)
Definition go_append (s t : sl) : prog sl :=
  if s_len s + s_len t <=? s_cap s
  then let* d := read t in
       write_from (s_arr s) (s_off s + s_len s) d (ret (SL (s_arr s) (s_off s) (s_len s + s_len t) (s_cap s)))
  else let* c := read s in
       let* d := read t in
       fresh (c ++ d) (spare (s_len s + s_len t)).

Fixpoint read_all (ss : list sl) : prog (list bytes) :=
  match ss with [] => ret [] | s :: r => let* d := read s in let* ds := read_all r in ret (d :: ds) end.
(** [HashesSha3_512], crypto.go:49-61; [HashesSha3_256], :38-46: [Sum(nil)] appends to nil. *)
Definition sha512 (ss : list sl) : prog sl :=
  let* ds := read_all ss in fresh (H512 ds) (spare (length (H512 ds))).
Definition sha256 (s : sl) : prog sl :=
  let* d := read s in fresh (H256 d) (spare (length (H256 d))).

(** [NewEd25519EncodedFieldElement], ed25519_encode.go:931-940, [NewEd25519EncodedGroupElement],
    :1808-1815: keep the slice.  (The [zero] field, a new array of zeros, is not stored.) *)
Definition efe (s : sl) : prog sl :=
  if (s_len s =? 32) || (s_len s =? 64) then ret s else Ret (Err ErrEncodedField).
Definition ege (s : sl) : prog sl :=
  if s_len s =? 32 then ret s else Ret (Err ErrEncodedGroup).
(** [modQ], ed25519_encode.go:1041-1358; [multiplyAndAddModQ], :1370-1796: read the arguments, write
    a new array of 32 bytes. *)
Definition modQ (e : sl) : prog sl :=
  let* b := read e in let* r := lift (sc_modQ b) in fresh r 0.
Definition mulAdd (a b c : sl) : prog sl :=
  let* x := read a in let* y := read b in let* z := read c in
  let* r := lift (sc_mulAdd x y z) in fresh r 0.

(** [Ed25519FieldElement.Encode], ed25519_encode.go:853-892: a new array. *)
Definition fencode (f : fe) : prog sl := fresh (fe_encode f) 0.
(** [Ed25519GroupElement.Encode], ed25519_encode.go:2308-2325: the sign of x is or-ed into the last
    byte of the array that holds the encoding of y. *)
Definition gencode_proj (g : gcore) : prog sl :=
  let inverse := fe_invert (gZ g) in
  let x := fe_mul (gX g) inverse in
  let y := fe_mul (gY g) inverse in
  let* s := fencode y in
  let* v := idx s (s_len s - 1) in
  let* _ := set s (s_len s - 1) (Z.lor v (if fe_is_negative x then 128 else 0)) in
  ege s.
Definition gencode (g : gcore) : prog sl :=
  match g_cs g with
  | P2 | P3 => gencode_proj g
  | _ => let* g2 := lift (to_P2 g) in gencode_proj g2
  end.
(** [Ed25519EncodedGroupElement.Decode], ed25519_encode.go:1818-1831 (reads Raw for x, and again
    for y). *)
Definition gdecode (raw : sl) : prog gcore :=
  let* b := read raw in
  let* x := lift (affine_x b) in
  let* c := read raw in
  let* y := lift (affine_y c) in
  ret (newP3 x y fe_one (fe_mul x y)).

(** [PrepareForScalarMultiply], ed25519_encode.go:18-29: three writes to the hash. *)
Definition prepare (k : mpriv) : prog sl :=
  let* hash := sha512 [mk_raw k] in
  let* a := lift (reslice hash 0 32) in
  let* v := idx a 31 in
  let* _ := set a 31 (Z.land v 0x7F) in
  let* v := idx a 31 in
  let* _ := set a 31 (Z.lor v 0x40) in
  let* v := idx a 0 in
  let* _ := set a 0 (Z.land v 0xF8) in
  ret a.
(** [scalarMultiply], ed25519_encode.go:2801-2838, reads the scalar. *)
Definition mult (g : ge) (a : sl) : prog gcore := let* b := read a in lift (g_scalarMultiply g b).
(** a Go call whose error is turned into a panic or ignored (then nil is dereferenced) *)
Fixpoint must {A} (p : prog A) : prog A :=
  match p with
  | Ret r => Ret (unwrap r)
  | Get a i k => Get a i (fun v => must (k v))
  | Put a i v k => Put a i v (must k)
  | New n k => New n (fun a => must (k a))
  end.

(** [DerivePublicKey], ed25519_model.go:374-384. *)
Definition derive (k : mpriv) : prog sl :=
  let* a := prepare k in
  let* B := lift base_point in
  let* pubKey := must (mult B a) in
  must (gencode pubKey).
(** [NewPrivateKey], key_model.go:41-43: reads the bytes for the value, keeps the slice. *)
Definition mnew_private_key (raw : sl) : prog mpriv := let* b := read raw in ret (MPriv (be_val b) raw).
(** [NewKeyPair], key_pair.go:23-35. *)
Definition mnew_key_pair (priv : option mpriv) (pub : option sl) : prog mpair :=
  match pub with
  | None => match priv with
            | None => Ret Panic
            | Some k => let* p := derive k in ret (MPair priv p)
            end
  | Some p => if 32 =? s_len p then ret (MPair priv p) else Ret (Err ErrNotCompressed)
  end.
(** [io.ReadFull(src, buf)] where src delivers [random] to this call: the bytes come into buf; fewer
    than len(buf) bytes are an error.  The rest of the random bytes is returned. *)
Definition read_full_into (buf : sl) (random : bytes) : prog bytes :=
  let* _ := fill buf 0 (firstn (s_len buf) random) in
  if length random <? s_len buf then Ret (Err ErrEOF) else ret (skipn (s_len buf) random).
(** [GenerateKeyPair], ed25519_model.go:360-371. *)
Definition mgenerate (random : bytes) : prog mpair :=
  let* seed := make 32 in
  let* _ := read_full_into seed random in
  let* privateKey := mnew_private_key seed in
  let* publicKey := derive privateKey in
  mnew_key_pair (Some privateKey) (Some publicKey).

(** [NewSignature], signature.go:29-35; [NewSignatureFromBytes], :52-57. *)
Definition mnew_signature (r s : sl) : prog msig :=
  if negb (s_len r =? 32) || negb (s_len s =? 32) then Ret (Err ErrNewSignature) else ret (MSig r s).
Definition mnew_signature_from_bytes (b : sl) : prog msig :=
  if s_len b <? 64 then Ret (Err ErrNewSignatureFromBytes)
  else let* r := lift (reslice b 0 32) in let* s := lift (reslice b 32 (s_len b)) in mnew_signature r s.
(** [Bytes], signature.go:72-75. *)
Definition mbytes (g : msig) : prog sl := go_append (mR g) (mS g).
(** [IsCanonicalSignature], ed25519_model.go:325-329. *)
Definition mis_canonical (g : msig) : prog bool :=
  let* s := read (mS g) in ret (is_canonical_signature (Sig [] s)).
(** [MakeSignatureCanonical], ed25519_model.go:332-342; [copy] takes at most 64 bytes. *)
Definition mmake_canonical (g : msig) : prog msig :=
  let* sign := make 64 in
  let* d := read (mS g) in
  let* _ := fill sign 0 (firstn 64 d) in
  let* s := efe sign in
  let* sModQ := modQ s in
  mnew_signature (mR g) sModQ.

(** [Sign], ed25519_model.go:206-266. *)
Definition msign (kp : mpair) (mess : sl) : prog msig :=
  match mp_priv kp with
  | None => Ret (Err ErrNoPrivateKey)
  | Some k =>
    let* hash := sha512 [mk_raw k] in
    let* tail := lift (reslice hash 32 (s_len hash)) in
    let* hashR := sha512 [tail; mess] in
    let* r := efe hashR in
    let* rModQ := modQ r in
    let* B := lift base_point in
    let* R := mult B rModQ in
    let* encodedR := gencode R in
    let* hashH := sha512 [encodedR; mp_pub kp; mess] in
    let* h := efe hashH in
    let* hModQ := modQ h in
    let* a := prepare k in
    let* encodedS := mulAdd hModQ a rModQ in
    let* sg := mnew_signature encodedR encodedS in
    let* c := mis_canonical sg in
    if negb c then Ret (Err ErrNotCanonical) else ret sg
  end.

(** [isEqualConstantTime], crypto.go:89-91. *)
Definition equal (s t : sl) : prog bool := let* x := read s in let* y := read t in ret (beq_bytes x y).
(** an error makes the result false, ed25519_model.go:288-317 *)
Fixpoint false_on_error (p : prog bool) : prog bool :=
  match p with
  | Ret r => Ret (or_false r)
  | Get a i k => Get a i (fun v => false_on_error (k v))
  | Put a i v k => Put a i v (false_on_error k)
  | New n k => New n (fun a => false_on_error (k a))
  end.
(** [Verify], ed25519_model.go:270-322. *)
Definition mverify (kp : mpair) (mess : sl) (g : msig) : prog bool :=
  let* c := mis_canonical g in
  if negb c then ret false else
  let* zero := make 32 in
  let* z := equal (mp_pub kp) zero in
  if z then ret false else
  let* hashR := sha512 [mR g; mp_pub kp; mess] in
  false_on_error (
    let* h := efe hashR in
    let* hModQ := modQ h in
    let* A0 := gdecode (mp_pub kp) in
    let* A := lift (g_precompute_double (new_ge A0)) in
    let* B := lift base_point in
    let* hb := read hModQ in
    let* sb := read (mS g) in
    let* calculatedR := lift (g_doubleScalarMultiply B A hb sb) in
    let* encodedCalculatedR := gencode calculatedR in
    equal encodedCalculatedR (mR g)).

(** the loop of [GetSharedKey], ed25519_model.go:139-141: [sharedKey.Raw[i] ^= salt[i]] *)
Fixpoint xor_loop (n i : nat) (k salt : sl) : prog unit :=
  match n with
  | O => ret tt
  | S n' => let* x := idx k i in let* y := idx salt i in let* _ := set k i (Z.lxor x y) in xor_loop n' (S i) k salt
  end.
(** [GetSharedKey], ed25519_model.go:120-144. *)
Definition mshared_key (n : nat) (priv : option mpriv) (pub salt : sl) : prog sl :=
  let* grA := ege pub in
  let* c := gdecode grA in
  let* senderA := lift (g_precompute_single (new_ge c)) in
  let* k := lift (deref priv) in
  let* a := prepare k in
  let* el := mult senderA a in
  let* sharedKey := gencode el in
  let* _ := xor_loop n 0 sharedKey salt in
  sha256 sharedKey.

(** [encode], ed25519_model.go:64-88: buf gets the message and the padding; CryptBlocks reads buf and
    writes ciphertext. *)
Definition mencode (message sharedKey ivData : sl) : prog sl :=
  let* key := read sharedKey in
  if negb (aes_key_ok key) then Ret (Err ErrAesKeySize) else
  let paddingSize := 16 - s_len message mod 16 in
  let* buf := make (s_len message + paddingSize) in
  let* d := read message in
  let* _ := fill buf 0 d in
  let* _ := fill buf (s_len message) (repeat (Z.of_nat paddingSize) paddingSize) in
  let* iv := read ivData in
  let* p := read buf in
  let* c := lift (crypt_blocks (cbc_enc aesE) key iv p) in
  fresh c 0.
(** the loop ed25519_model.go:110-114: buf[i] for messageSize <= i < bufferSize *)
Fixpoint check_loop (n i : nat) (buf : sl) (v : Z) : prog unit :=
  match n with
  | O => ret tt
  | S n' => let* x := idx buf i in if Z.eqb x v then check_loop n' (S i) buf v else Ret (Err ErrPaddingByte)
  end.
(** [decode], ed25519_model.go:90-117. *)
Definition mdecode (ciphertext sharedKey ivData : sl) : prog sl :=
  let* key := read sharedKey in
  if negb (aes_key_ok key) then Ret (Err ErrAesKeySize) else
  let* iv := read ivData in
  let* c := read ciphertext in
  let* p := lift (crypt_blocks (cbc_dec aesD) key iv c) in
  let* buf := fresh p 0 in
  let bufferSize := s_len buf in
  if bufferSize =? 0 then Ret Panic else
  let* paddingSize := idx buf (bufferSize - 1) in
  if ((paddingSize =? 0) || (16 <? paddingSize))%Z then Ret (Err ErrPaddingSize) else
  if (Z.of_nat bufferSize - paddingSize <? 0)%Z then Ret Panic else
  let messageSize := bufferSize - Z.to_nat paddingSize in
  let* _ := check_loop (bufferSize - messageSize) messageSize buf paddingSize in
  lift (reslice buf 0 messageSize).
(** [Encrypt], ed25519_model.go:147-175; keyLength is len(recipient.PublicKey.Raw), :59. *)
Definition mencrypt (s r : mpair) (random : bytes) (input : sl) : prog sl :=
  let keyLength := s_len (mp_pub r) in
  let* salt := make keyLength in
  let* rest := read_full_into salt random in
  let* sharedKey := mshared_key keyLength (mp_priv s) (mp_pub r) salt in
  let* ivData := make 16 in
  let* _ := read_full_into ivData rest in
  let* buf := mencode input sharedKey ivData in
  let* t := go_append salt ivData in
  go_append t buf.
(** [Decrypt], ed25519_model.go:178-193: slices of the input, up to its capacity. *)
Definition mdecrypt (s r : mpair) (input : sl) : prog sl :=
  let keyLength := s_len (mp_pub r) in
  if s_len input <? 64 then Ret (Err ErrTooShort) else
  let* salt := lift (reslice input 0 keyLength) in
  let* ivData := lift (reslice input keyLength 48) in
  let* encData := lift (reslice input 48 (s_len input)) in
  let* sharedKey := mshared_key keyLength (mp_priv r) (mp_pub s) salt in
  mdecode encData sharedKey ivData.

(** ** Client programs: lists of calls, each result kept *)
Inductive val : Set :=
| VSl (s : sl) | VPriv (k : mpriv) | VPub (p : sl) | VPair (k : mpair) | VSig (g : msig)
| VBool (b : bool) | VStr (b : bytes) | VErr (e : err).
(** Arguments are positions in the list of results so far; None is nil. *)
Inductive op : Set :=
| OMake (d : bytes) (x : nat)        (* the client makes a slice *)
| OSlice (i lo hi : nat)             (* ... slices one within its length *)
| OWrite (i pos : nat) (v : Z)       (* ... writes a byte *)
| OPriv (i : nat)                    (* NewPrivateKey *)
| OPub (i : nat)                     (* NewPublicKey *)
| ODerive (k : nat)                  (* DerivePublicKey *)
| OPair (k p : option nat)           (* NewKeyPair *)
| OGenerate (random : bytes)         (* GenerateKeyPair, the source delivers these bytes *)
| ONewSig (i j : nat) | OSigBytes (i : nat)  (* NewSignature, NewSignatureFromBytes *)
| OSign (k i : nat) | OVerify (k i g : nat)
| OCanonical (g : nat) | OMakeCanonical (g : nat)
| OEncrypt (s r : nat) (random : bytes) (i : nat) | ODecrypt (s r i : nat)
| OBytes (g : nat)                   (* Signature.Bytes *)
| OHex (k : nat).                    (* PrivateKey.String, PublicKey.String, Signature.String *)
Definition env := list val.

(** a call's result, or its error, is one more value *)
Fixpoint save {A} (f : A -> val) (e : env) (p : prog A) : prog env :=
  match p with
  | Ret (Ok a) => ret (e ++ [f a])
  | Ret (Err x) => ret (e ++ [VErr x])
  | Ret Panic => Ret Panic
  | Get a i k => Get a i (fun v => save f e (k v))
  | Put a i v k => Put a i v (save f e k)
  | New n k => New n (fun a => save f e (k a))
  end.
(** [PrivateKey.String], key_model.go:64-66; [PublicKey.String], :97-99; [Signature.String],
    signature.go:77-80. *)
Definition mstring (v : val) : prog bytes :=
  match v with
  | VPriv k => let* b := read (mk_raw k) in ret (hex_encode b)
  | VPub p => let* b := read p in ret (to_upper (hex_encode b))
  | VSig g => let* s := mbytes g in let* b := read s in ret (hex_encode b)
  | _ => Ret Panic
  end.
(** A position without a value of the right kind: the client is no Go program; taken as a panic. *)
Definition do_op (e : env) (o : op) : prog env :=
  let at_ := nth_error e in
  match o with
  | OMake d x => save VSl e (fresh d x)
  | OSlice i lo hi =>
      match at_ i with
      | Some (VSl s) => save VSl e (if hi <=? s_len s then lift (reslice s lo hi) else Ret Panic)
      | _ => Ret Panic end
  | OWrite i pos v =>
      match at_ i with Some (VSl s) => let* _ := set s pos v in ret e | _ => Ret Panic end
  | OPriv i => match at_ i with Some (VSl s) => save VPriv e (mnew_private_key s) | _ => Ret Panic end
  | OPub i => match at_ i with Some (VSl s) => ret (e ++ [VPub s]) | _ => Ret Panic end
  | ODerive k => match at_ k with Some (VPriv k) => save VPub e (derive k) | _ => Ret Panic end
  | OPair k p =>
      match (match k with None => Some None | Some i => match at_ i with Some (VPriv x) => Some (Some x) | _ => None end end),
            (match p with None => Some None | Some i => match at_ i with Some (VPub x) => Some (Some x) | _ => None end end) with
      | Some k, Some p => save VPair e (mnew_key_pair k p)
      | _, _ => Ret Panic end
  | OGenerate random => save VPair e (mgenerate random)
  | ONewSig i j =>
      match at_ i, at_ j with Some (VSl r), Some (VSl s) => save VSig e (mnew_signature r s) | _, _ => Ret Panic end
  | OSigBytes i => match at_ i with Some (VSl b) => save VSig e (mnew_signature_from_bytes b) | _ => Ret Panic end
  | OSign k i => match at_ k, at_ i with Some (VPair k), Some (VSl m) => save VSig e (msign k m) | _, _ => Ret Panic end
  | OVerify k i g =>
      match at_ k, at_ i, at_ g with
      | Some (VPair k), Some (VSl m), Some (VSig g) => save VBool e (mverify k m g) | _, _, _ => Ret Panic end
  | OCanonical g => match at_ g with Some (VSig g) => save VBool e (mis_canonical g) | _ => Ret Panic end
  | OMakeCanonical g => match at_ g with Some (VSig g) => save VSig e (mmake_canonical g) | _ => Ret Panic end
  | OEncrypt s r random i =>
      match at_ s, at_ r, at_ i with
      | Some (VPair s), Some (VPair r), Some (VSl m) => save VSl e (mencrypt s r random m) | _, _, _ => Ret Panic end
  | ODecrypt s r i =>
      match at_ s, at_ r, at_ i with
      | Some (VPair s), Some (VPair r), Some (VSl m) => save VSl e (mdecrypt s r m) | _, _, _ => Ret Panic end
  | OBytes g => match at_ g with Some (VSig g) => save VSl e (mbytes g) | _ => Ret Panic end
  | OHex k => match at_ k with Some v => save VStr e (mstring v) | _ => Ret Panic end
  end.
Fixpoint do_ops (e : env) (os : list op) : prog env :=
  match os with [] => ret e | o :: r => let* e' := do_op e o in do_ops e' r end.
End Api.
