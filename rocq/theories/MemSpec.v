(** Vocabulary of the properties C56-C59: what a slice shows, when a program leaves shared memory
    alone, and the calls of a client as functions of byte strings ([ApiModel], the model of the other
    properties). *)
From Coq Require Import List ZArith Bool Arith.
From Verif Require Import GoBase GroupModel ApiModel MemModel.
Import ListNotations.
Open Scope nat_scope.

(** ** Slices *)
Definition array_of (m : mem) (a : addr) : bytes := match arr m a with Some l => l | None => [] end.
(** the bytes a slice shows *)
Definition rd (m : mem) (s : sl) : bytes := firstn (s_len s) (skipn (s_off s) (array_of m (s_arr s))).
(** what every Go slice value satisfies *)
Definition wf_sl (m : mem) (s : sl) : Prop :=
  arr m (s_arr s) <> None /\ s_len s <= s_cap s /\ s_off s + s_cap s <= length (array_of m (s_arr s)).

(** ** Memory *)
(** nothing that existed has changed; there may be new arrays *)
Definition grows (m m' : mem) : Prop := m_sh m' = m_sh m /\ exists new, m_own m' = m_own m ++ new.
(** the slice is in an array that did not exist in [m] *)
Definition is_new (m : mem) (s : sl) : Prop := exists n, s_arr s = Own n /\ length (m_own m) <= n.
(** along the uninterrupted run the program writes to no array that existed before the goroutines *)
Fixpoint quiet {A} (p : prog A) (m : mem) : Prop :=
  match p with
  | Ret _ => True
  | Get a i k => match cell m a i with Some v => quiet (k v) m | None => True end
  | Put a i v k =>
      (forall n, a <> Sh n) /\ match cell m a i with Some _ => quiet k (set_cell m a i v) | None => True end
  | New n k => quiet (k (Own (length (m_own m)))) (push m (repeat 0%Z n))
  end.
(** ... or only bytes that are there already *)
Fixpoint calm {A} (p : prog A) (m : mem) : Prop :=
  match p with
  | Ret _ => True
  | Get a i k => match cell m a i with Some v => calm (k v) m | None => True end
  | Put a i v k =>
      ((forall n, a <> Sh n) \/ cell m a i = Some v) /\
      match cell m a i with Some _ => calm k (set_cell m a i v) | None => True end
  | New n k => calm (k (Own (length (m_own m)))) (push m (repeat 0%Z n))
  end.
(** the number of accesses of the uninterrupted run *)
Fixpoint accesses {A} (p : prog A) (m : mem) : nat :=
  match p with
  | Ret _ => 0
  | Get a i k => S (match cell m a i with Some v => accesses (k v) m | None => 0 end)
  | Put a i v k => S (match cell m a i with Some _ => accesses k (set_cell m a i v) | None => 0 end)
  | New n k => S (accesses (k (Own (length (m_own m)))) (push m (repeat 0%Z n)))
  end.

(** same outcome: both succeed, with related results (in the memory [m]), or both fail with the same
    error, or both panic *)
Definition agrees {A X} (R : A -> X -> mem -> Prop) (r : res A) (v : res X) (m : mem) : Prop :=
  match r, v with
  | Ok a, Ok x => R a x m
  | Err e, Err e' => e = e'
  | Panic, Panic => True
  | _, _ => False
  end.

(** uninterrupted, the call has the outcome [v], writes to nothing shared and changes nothing that existed *)
Definition effect {A X} (p : prog A) (m : mem) (v : res X) (R : A -> X -> mem -> Prop) : Prop :=
  exists r m', exec p m = (r, m') /\ quiet p m /\ grows m m' /\ agrees R r v m'.

(** ** Values of objects at a moment *)
Definition priv_at (m : mem) (k : mpriv) : privkey := PrivKey (mk_value k) (rd m (mk_raw k)).
Definition pair_at (m : mem) (k : mpair) : keypair :=
  KeyPair (match mp_priv k with Some p => Some (priv_at m p) | None => None end) (rd m (mp_pub k)).
Definition sig_at (m : mem) (g : msig) : signature := Sig (rd m (mR g)) (rd m (mS g)).
Definition opt_at {A B} (f : A -> B) (o : option A) : option B := match o with Some x => Some (f x) | None => None end.
Inductive pval : Set :=
| PSl (b : bytes) | PPriv (k : privkey) | PPub (b : bytes) | PPair (k : keypair) | PSig (g : signature)
| PBool (b : bool) | PStr (b : bytes) | PErr (e : err).
Definition view (m : mem) (v : val) : pval :=
  match v with
  | VSl s => PSl (rd m s) | VPriv k => PPriv (priv_at m k) | VPub p => PPub (rd m p)
  | VPair k => PPair (pair_at m k) | VSig g => PSig (sig_at m g)
  | VBool b => PBool b | VStr b => PStr b | VErr e => PErr e
  end.
(** all slices in a value are Go slices *)
Definition wf_priv (m : mem) (k : mpriv) : Prop := wf_sl m (mk_raw k).
Definition wf_pair (m : mem) (k : mpair) : Prop :=
  (match mp_priv k with Some p => wf_priv m p | None => True end) /\ wf_sl m (mp_pub k).
Definition wf_sig (m : mem) (g : msig) : Prop := wf_sl m (mR g) /\ wf_sl m (mS g).
Definition wf_val (m : mem) (v : val) : Prop :=
  match v with
  | VSl s | VPub s => wf_sl m s | VPriv k => wf_priv m k | VPair k => wf_pair m k | VSig g => wf_sig m g
  | _ => True
  end.

(** ** Clients as functions of byte strings *)
Section Pure.
Variable H512 : list bytes -> bytes.
Variable H256 : bytes -> bytes.
Variable aesE aesD : bytes -> bytes -> bytes.
Definition keep {A} (f : A -> pval) (e : list pval) (r : res A) : res (list pval) :=
  match r with Ok a => Ok (e ++ [f a]) | Err x => Ok (e ++ [PErr x]) | Panic => Panic end.
Definition call (e : list pval) (o : op) : res (list pval) :=
  let at_ := nth_error e in
  match o with
  | OMake d x => Ok (e ++ [PSl d])
  | OSlice i lo hi =>
      match at_ i with
      | Some (PSl b) => if (lo <=? hi) && (hi <=? length b) then Ok (e ++ [PSl (firstn (hi - lo) (skipn lo b))]) else Panic
      | _ => Panic end
  | OWrite i pos v => Panic
  | OPriv i => match at_ i with Some (PSl b) => Ok (e ++ [PPriv (new_private_key b)]) | _ => Panic end
  | OPub i => match at_ i with Some (PSl b) => Ok (e ++ [PPub b]) | _ => Panic end
  | ODerive k => match at_ k with Some (PPriv k) => keep PPub e (derive_public_key H512 k) | _ => Panic end
  | OPair k p =>
      match (match k with None => Some None | Some i => match at_ i with Some (PPriv x) => Some (Some x) | _ => None end end),
            (match p with None => Some None | Some i => match at_ i with Some (PPub x) => Some (Some x) | _ => None end end) with
      | Some k, Some p => keep PPair e (new_key_pair H512 k p)
      | _, _ => Panic end
  | OGenerate random => keep (fun x => PPair (fst x)) e (generate_key_pair H512 random)
  | ONewSig i j =>
      match at_ i, at_ j with Some (PSl r), Some (PSl s) => keep PSig e (new_signature r s) | _, _ => Panic end
  | OSigBytes i => match at_ i with Some (PSl b) => keep PSig e (new_signature_from_bytes b) | _ => Panic end
  | OSign k i => match at_ k, at_ i with Some (PPair k), Some (PSl m) => keep PSig e (sign H512 k m) | _, _ => Panic end
  | OVerify k i g =>
      match at_ k, at_ i, at_ g with
      | Some (PPair k), Some (PSl m), Some (PSig g) => keep PBool e (verify H512 k m g) | _, _, _ => Panic end
  | OCanonical g => match at_ g with Some (PSig g) => Ok (e ++ [PBool (is_canonical_signature g)]) | _ => Panic end
  | OMakeCanonical g => match at_ g with Some (PSig g) => keep PSig e (make_signature_canonical g) | _ => Panic end
  | OEncrypt s r random i =>
      match at_ s, at_ r, at_ i with
      | Some (PPair s), Some (PPair r), Some (PSl m) =>
          keep (fun x => PSl (fst x)) e (encrypt H512 H256 aesE (new_block_cipher s r) random m)
      | _, _, _ => Panic end
  | ODecrypt s r i =>
      match at_ s, at_ r, at_ i with
      | Some (PPair s), Some (PPair r), Some (PSl m) => keep PSl e (decrypt H512 H256 aesD (new_block_cipher s r) m)
      | _, _, _ => Panic end
  | OBytes g => match at_ g with Some (PSig g) => Ok (e ++ [PSl (signature_bytes g)]) | _ => Panic end
  | OHex k =>
      match at_ k with
      | Some (PPriv k) => Ok (e ++ [PStr (private_key_string k)])
      | Some (PPub k) => Ok (e ++ [PStr (public_key_string k)])
      | Some (PSig g) => Ok (e ++ [PStr (signature_string g)])
      | _ => Panic end
  end.
Fixpoint calls (e : list pval) (os : list op) : res (list pval) :=
  match os with [] => Ok e | o :: r => do e' <- call e o; calls e' r end.

(** ** Clients that keep to the rules *)
Variable spare : nat -> nat.
(** R has no room behind it for S (as in signatures made by Sign) *)
Definition no_room (g : msig) : Prop := s_cap (mR g) < s_len (mR g) + s_len (mS g).
(** S is what follows R in its array (as in signatures made by NewSignatureFromBytes) *)
Definition followed (g : msig) : Prop := s_arr (mS g) = s_arr (mR g) /\ s_off (mS g) = s_off (mR g) + s_len (mR g).
(** the client writes to no slice, and asks only signatures with [good] for bytes or string *)
Definition tidy_op (good : msig -> Prop) (e : env) (o : op) : Prop :=
  match o with
  | OWrite _ _ _ => False
  | OBytes g | OHex g => forall s, nth_error e g = Some (VSig s) -> good s
  | _ => True
  end.
Fixpoint tidy (good : msig -> Prop) (m : mem) (e : env) (os : list op) : Prop :=
  match os with
  | [] => True
  | o :: r => tidy_op good e o /\
      forall e' m', exec (do_op H512 H256 aesE aesD spare e o) m = (Ok e', m') -> tidy good m' e' r
  end.
(** each client's list of calls, on what it can reach of the shared memory, as a program *)
Definition programs (clients : list (env * list op)) : list (prog env) := map (fun x => do_ops H512 H256 aesE aesD spare (fst x) (snd x)) clients.
End Pure.
(** calls other than writes, Bytes and String *)
Definition plain (o : op) : bool := match o with OWrite _ _ _ | OBytes _ | OHex _ => false | _ => true end.

(** ** Goroutines *)
(** what goroutine [t] has left to do, and the arrays it made *)
Definition thread {A} (c : machine A) (t : nat) : option (prog A * list bytes) := nth_error (c_threads c) t.
Definition turns_of (t : nat) (schedule : list nat) : nat := count_occ Nat.eq_dec schedule t.
