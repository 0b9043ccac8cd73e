(** The hash functions of crypto.go that the library calls: SHA3-256, SHA3-512 and Keccak-256,
    with the incremental sponge of golang.org/x/crypto/sha3 (the version of /repo/go.mod,
    v0.0.0-20190513172903-22d7a77e9e5f: files sha3.go, keccakf.go, xor_generic.go, hashes.go of
    that module; its source is not in /repo, so this part is a contract).
    [HashesSha_256] and [HashesRipemd160] (crypto.go:15-24, 64-73) are in [MdModel]. *)
From Verif Require Import GoBase GroupModel.
Open Scope Z_scope.

(** ** The permutation Keccak-f[1600] on 200 bytes, keccakf.go; 25 little endian lanes,
    lane (x, y) at index x + 5 y. *)
Definition lanes := list Z.
Definition lane (a : lanes) (i : nat) : Z := nth i a 0.
Definition m64 : Z := 2 ^ 64.
Definition rotl (v : Z) (n : Z) : Z := Z.lor (Z.shiftl v n mod m64) (Z.shiftr v (64 - n)).
Fixpoint to_lanes (n : nat) (b : bytes) : lanes :=
  match n with O => [] | S k => le_val (firstn 8 b) :: to_lanes k (skipn 8 b) end.
Definition of_lanes (a : lanes) : bytes := flat_map (le_bytes 8) a.

Definition col5 (f : nat -> Z) : lanes := map f (seq 0 5).
Definition all25 (f : nat -> Z) : lanes := map f (seq 0 25).
Definition theta (a : lanes) : lanes :=
  let c := col5 (fun x => Z.lxor (lane a x) (Z.lxor (lane a (x + 5)) (Z.lxor (lane a (x + 10))
             (Z.lxor (lane a (x + 15)) (lane a (x + 20)))))) in
  let d := col5 (fun x => Z.lxor (lane c ((x + 4) mod 5)) (rotl (lane c ((x + 1) mod 5)) 1)) in
  all25 (fun i => Z.lxor (lane a i) (lane d (i mod 5))).
Definition rho_offsets : list Z :=
  [0; 1; 62; 28; 27; 36; 44; 6; 55; 20; 3; 10; 43; 25; 39; 41; 45; 15; 21; 8; 18; 2; 61; 56; 14].
(** rho and pi: lane (x, y) moves to (y, 2x + 3y) *)
Definition rho_pi (a : lanes) : lanes :=
  all25 (fun i => let X := (i mod 5)%nat in let Y := (i / 5)%nat in
                  let x := ((X + 3 * Y) mod 5)%nat in let y := X in
                  rotl (lane a (x + 5 * y)) (nth (x + 5 * y) rho_offsets 0)).
Definition chi (a : lanes) : lanes :=
  all25 (fun i => let x := (i mod 5)%nat in let y := (i / 5)%nat in
    Z.lxor (lane a i)
      (Z.land (Z.lxor (lane a ((x + 1) mod 5 + 5 * y)) (m64 - 1)) (lane a ((x + 2) mod 5 + 5 * y)))).
Definition iota (rc : Z) (a : lanes) : lanes :=
  match a with [] => [] | v :: r => Z.lxor v rc :: r end.
Definition keccak_round (a : lanes) (rc : Z) : lanes := iota rc (chi (rho_pi (theta a))).
Definition round_constants : list Z :=
  [0x0000000000000001; 0x0000000000008082; 0x800000000000808A; 0x8000000080008000;
   0x000000000000808B; 0x0000000080000001; 0x8000000080008081; 0x8000000000008009;
   0x000000000000008A; 0x0000000000000088; 0x0000000080008009; 0x000000008000000A;
   0x000000008000808B; 0x800000000000008B; 0x8000000000008089; 0x8000000000008003;
   0x8000000000008002; 0x8000000000000080; 0x000000000000800A; 0x800000008000000A;
   0x8000000080008081; 0x8000000000008080; 0x0000000080000001; 0x8000000080008008].
Definition keccak_f (s : bytes) : bytes :=
  of_lanes (fold_left keccak_round round_constants (to_lanes 25 s)).

(** ** The sponge object, sha3.go *)
(** the fields a and buf of [state] while absorbing *)
Record sponge : Set := Sponge { sp_a : bytes; sp_buf : bytes }.

(** xor into the front of the state, xor_generic.go [xorInGeneric] *)
Fixpoint xor_in (a b : bytes) : bytes :=
  match a, b with
  | x :: a', y :: b' => Z.lxor x y :: xor_in a' b'
  | _, _ => a
  end.

Section Sponge.
Variable f : bytes -> bytes.          (* the permutation *)
Variable rate : nat.
Variable dsbyte : Z.
Variable outlen : nat.

(** [sha3.New512], [sha3.New256], [sha3.NewLegacyKeccak256], hashes.go *)
Definition sponge_new : sponge := Sponge (all_zero 200) [].
(** [permute] in the absorbing state *)
Definition sponge_permute (s : sponge) : sponge := Sponge (f (xor_in (sp_a s) (sp_buf s))) [].
(** [Write]: the loop, at most one iteration for every byte of p (the fuel n) *)
Fixpoint sponge_write_loop (n : nat) (s : sponge) (p : bytes) : sponge :=
  match n with
  | O => s
  | S n' =>
      match p with
      | [] => s
      | _ =>
        if Nat.eqb (length (sp_buf s)) 0 && Nat.leb rate (length p)
        then sponge_write_loop n' (Sponge (f (xor_in (sp_a s) (firstn rate p))) (sp_buf s)) (skipn rate p)
        else let todo := Nat.min (rate - length (sp_buf s)) (length p) in
             let s1 := Sponge (sp_a s) (sp_buf s ++ firstn todo p) in
             let s2 := if Nat.eqb (length (sp_buf s1)) rate then sponge_permute s1 else s1 in
             sponge_write_loop n' s2 (skipn todo p)
      end
  end.
(** [Write] never returns an error *)
Definition sponge_write (s : sponge) (p : bytes) : res sponge := Ok (sponge_write_loop (length p) s p).
(** [padAndPermute] *)
Definition xor_last (b : bytes) : bytes := upd b (rate - 1) (Z.lxor (byte_at b (rate - 1)) 0x80).
Definition sponge_pad (s : sponge) : sponge :=
  let buf := sp_buf s ++ [dsbyte] in
  let buf := buf ++ repeat 0 (rate - length buf) in
  sponge_permute (Sponge (sp_a s) (xor_last buf)).
(** [Sum(nil)]: works on a clone; outputLen is at most the rate for these functions, so one copy
    out of the state delivers the result *)
Definition sponge_sum (s : sponge) : bytes := firstn outlen (firstn rate (sp_a (sponge_pad s))).

(** [for _, b := range inputs { hash.Write(b) }; hash.Sum(nil)], crypto.go:49-61 *)
Fixpoint write_all (s : sponge) (inputs : list bytes) : res sponge :=
  match inputs with
  | [] => Ok s
  | b :: r => do s <- sponge_write s b; write_all s r
  end.
Definition hash_parts (inputs : list bytes) : res bytes :=
  do s <- write_all sponge_new inputs; Ok (sponge_sum s).
(** [hash.Write(b); hash.Sum(nil)], crypto.go:27-46 *)
Definition hash_one (b : bytes) : res bytes :=
  do s <- sponge_write sponge_new b; Ok (sponge_sum s).
End Sponge.

(** [HashesSha3_512], crypto.go:49-61: rate 72, domain byte 6, 64 bytes *)
Definition HashesSha3_512 (inputs : list bytes) : res bytes := hash_parts keccak_f 72 0x06 64 inputs.
(** [HashesSha3_256], crypto.go:38-46: rate 136, domain byte 6, 32 bytes *)
Definition HashesSha3_256 (b : bytes) : res bytes := hash_one keccak_f 136 0x06 32 b.
(** [HashesKeccak_256], crypto.go:27-35: rate 136, domain byte 1, 32 bytes *)
Definition HashesKeccak_256 (b : bytes) : res bytes := hash_one keccak_f 136 0x01 32 b.

(** The functions the API model is instantiated with: the code ignores no error here because
    there is none ([PropHash]); on the impossible error the empty string. *)
Definition ok_bytes (r : res bytes) : bytes := match r with Ok b => b | _ => [] end.
Definition sha3_512 (inputs : list bytes) : bytes := ok_bytes (HashesSha3_512 inputs).
Definition sha3_256 (b : bytes) : bytes := ok_bytes (HashesSha3_256 b).

(** Test against published digests (a test of the transcription, not a proof). *)
Definition abc : bytes := [97; 98; 99].
Goal True.
  let b := eval vm_compute in (le_val (rev (sha3_512 [abc]))) in
  unify b 0xb751850b1a57168a5693cd924b6b096e08f621827444f70d884f5d0240d2712e10e116e9192af3c91a7ec57647e3934057340b4cf408d5a56592f8274eec53f0.
  let b := eval vm_compute in (le_val (rev (sha3_512 []))) in
  unify b 0xa69f73cca23a9ac5c8b567dc185a756e97c982164fe25859e0d1dcc1475c80a615b2123af1f5f94c11e3e9402c3ac558f500199d95b6d3e301758586281dcd26.
  let b := eval vm_compute in (le_val (rev (sha3_256 abc))) in
  unify b 0x3a985da74fe225b2045c172d6bd390bd855f086e3e9d525b46bfe24511431532.
  let b := eval vm_compute in (le_val (rev (ok_bytes (HashesKeccak_256 abc)))) in
  unify b 0x4e03657aea45a94fc7d47ba826c8d667c0d1e6e33a64a036ec44f58fa12d6c45.
  exact I.
Qed.
