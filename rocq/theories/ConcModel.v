(** Goroutines whose calls draw from shared random sources.

    [MemModel] interleaves the accesses of calls to memory and gives each call its random bytes.  Here the random bytes
    are fetched during the calls: any number of goroutines run lists of calls of [SessionModel], and the unit of
    interleaving is one Read of one io.Reader (what happens between two Reads touches nothing that another goroutine
    reads or writes: C56).  A Read is atomic, as that of crypto/rand.Reader is, which is documented to be safe for
    concurrent use, and as that of any other reader has to be for it to be shared. *)
From Coq Require Import List ZArith Arith.
From Verif Require Import GoBase ApiModel SessionModel.
Import ListNotations.
Open Scope Z_scope.

(** All readers of the program together: a type of states and what [Read(buf)] of reader i with len(buf) = n does.
    One state for all of them, so that readers may depend on each other (io.MultiReader, two readers of one file). *)
Record sources : Type := Sources { sstate : Type; sread : sstate -> nat -> nat -> bytes * option rerr * sstate }.

(** Where a call is that draws from a reader: in [io.ReadFull] of GenerateKeyPair (ed25519_model.go:362), in the first
    one of Encrypt (:151) or in the second one (:164), with the bytes it has got so far and what was computed before. *)
Inductive place : Set := Seed (got : bytes) | Salt (got : bytes) | Iv (salt key got : bytes).
(** A goroutine: the calls it still has to make (the first one may be under way), where it is in the first one (None:
    not begun), and what the calls before returned. *)
Record goroutine : Set := Go { todo : list call; within : option place; results : list outcome }.
(** A Read: by which goroutine in which of its calls, of which reader with which length, and what it returned. *)
Record event : Set := Event { by_go : nat; in_call : nat; of_reader : nat; asked : nat; answer : bytes * option rerr }.

Section Conc.
Variable S : sources.
Variable H512 : list bytes -> bytes.
Variable H256 : bytes -> bytes.
Variable aesE aesD : bytes -> bytes -> bytes.

(** The call returns. *)
Definition finish (g : goroutine) (o : outcome) : goroutine := Go (tl (todo g)) None (results g ++ [o]).
Definition move (g : goroutine) (p : place) : goroutine := Go (todo g) (Some p) (results g).
(** One round of the loop of io.ReadAtLeast (Go standard library, [for n < min && err == nil]) with [want] bytes wanted
    in all and fewer there: Read into the rest of the buffer.  After an error the loop ends, and the error is returned
    if bytes are still missing. *)
Definition round (want : nat) (got : bytes) (p : bytes -> place) (i : nat) (g : goroutine) (w : sstate S) :
  goroutine * sstate S * option (nat * nat * (bytes * option rerr)) :=
  match sread S w i (want - length got) with
  | (c, e, w') =>
      let got' := got ++ c in
      (match e with
       | None => move g (p got')
       | Some _ => if Nat.leb want (length got') then move g (p got') else finish g (ReadError (io_error got' e))
       end, w', Some (i, (want - length got)%nat, (c, e)))
  end.
(** What a goroutine does when it is its turn: it begins a call, or does one Read, or goes on with the bytes it has to
    the next io.ReadFull or to the end of the call. [GenerateKeyPair], ed25519_model.go:360-371, [Encrypt], :147-175; the
    other calls, which draw nothing, as in [SessionModel].  The last case does not occur: a place belongs to its call. *)
Definition turn (g : goroutine) (w : sstate S) : goroutine * sstate S * option (nat * nat * (bytes * option rerr)) :=
  match todo g with
  | [] => (g, w, None)
  | c :: _ =>
    match within g, c with
    | None, CGenerate (Some _) => (move g (Seed []), w, None)
    | None, CEncrypt _ _ _ _ => (move g (Salt []), w, None)
    | None, _ => (finish g (fst (do_call H512 H256 aesE aesD c (fun _ => []))), w, None)
    | Some (Seed got), CGenerate (Some e) =>
        if Nat.leb 32 (length got)
        then (finish g (of_res VPair (let privateKey := new_private_key got in
                                      do publicKey <- derive_public_key H512 privateKey;
                                      new_key_pair H512 (Some privateKey) (Some publicKey))), w, None)
        else round 32 got Seed (seed_of e) g w
    | Some (Salt got), CEncrypt s r e _ =>
        let bc := new_block_cipher s r in
        if Nat.leb (bc_keylen bc) (length got)
        then (match get_shared_key H512 H256 (bc_keylen bc) (kp_priv (bc_sender bc)) (kp_pub (bc_recipient bc)) got with
              | Err x => finish g (LibError x)
              | Panic => finish g Panicked
              | Ok key => move g (Iv got key [])
              end, w, None)
        else round (bc_keylen bc) got Salt (seed_of (or_default e)) g w
    | Some (Iv salt key got), CEncrypt _ _ e input =>
        if Nat.leb 16 (length got)
        then (finish g (of_res VBytes (do buf <- bc_encode aesE input key got; Ok ((salt ++ got) ++ buf))), w, None)
        else round 16 got (Iv salt key) (seed_of (or_default e)) g w
    | _, _ => (g, w, None)
    end
  end.

(** The program: its goroutines, the state of the readers, and the Reads made so far. *)
Record machine : Type := Machine { gos : nat -> goroutine; readers : sstate S; reads : list event }.
(** goroutine g has its turn *)
Definition step (m : machine) (g : nat) : machine :=
  match turn (gos m g) (readers m) with
  | (go, w, ev) =>
      Machine (fun h => if Nat.eqb h g then go else gos m h) w
              (reads m ++ match ev with
                          | Some (i, n, a) => [Event g (length (results (gos m g))) i n a]
                          | None => []
                          end)
  end.
(** A run: the scheduler picks goroutines in any order. *)
Definition start (calls : nat -> list call) (w : sstate S) : machine := Machine (fun g => Go (calls g) None []) w [].
Definition run_conc (schedule : list nat) (calls : nat -> list call) (w : sstate S) : machine :=
  fold_left step schedule (start calls w).
End Conc.
Arguments gos {S}.
Arguments readers {S}.
Arguments reads {S}.
